(** C70: comparing, copying and printing the distribution of a variable. *)
From Coq Require Import Reals Lra.
From Verif Require Import Base BN_Model BN_Sum_Proofs BNObj_Proofs PD_Model.
Open Scope nat_scope.

(** ** Specification *)
(** the two tables give the same row for every key *)
Definition same_table (d e : list (key * list R)) : Prop := forall k row, In (k, row) d <-> In (k, row) e.
(** a dict has each key once *)
Definition is_dict (d : list (key * list R)) : Prop := NoDup (map fst d).

Lemma row_eqb_ok a : forall b, row_eqb a b = true <-> a = b.
Proof.
  induction a as [|x a IH]; intros [|y b]; cbn; try (split; discriminate); [split; reflexivity|].
  destruct (Req_EM_T x y) as [->|N]; [rewrite IH; split; [intros ->; reflexivity | intros H; inversion H; reflexivity] | split; [discriminate | intros H; inversion H; congruence]].
Qed.
Lemma dict_eqb_ok d e : is_dict d -> is_dict e -> (dict_eqb d e = true <-> same_table d e).
Proof.
  intros Hd He. unfold dict_eqb. rewrite Bool.andb_true_iff, Nat.eqb_eq, forallb_forall.
  assert (A : forall k r, assoc key_eqb k e = Some r <-> In (k, r) e) by (intros; apply assoc_key; exact He).
  split.
  - intros [HL HF].
    assert (HI : forall k row, In (k, row) d -> In (k, row) e).
    { intros k row H. specialize (HF _ H). cbn in HF. destruct (assoc key_eqb k e) as [r|] eqn:E; [|discriminate]. apply row_eqb_ok in HF. subst r. apply A. exact E. }
    assert (HK : incl (map fst e) (map fst d)).
    { apply NoDup_length_incl; [exact Hd | rewrite !map_length; lia |]. intros k Hk. apply in_map_iff in Hk as ([k' row] & <- & Hk). apply in_map_iff. exists (k', row). auto. }
    intros k row. split; [apply HI|]. intros H. assert (Hk : In k (map fst d)) by (apply HK, in_map_iff; exists (k, row); auto).
    apply in_map_iff in Hk as ([k' row'] & E & Hk). cbn in E. subst k'. pose proof (HI _ _ Hk) as H'. apply A in H, H'. congruence.
  - intros HS. split.
    + rewrite <- !(map_length fst). apply Nat.le_antisymm; apply NoDup_incl_length; try assumption;
        intros k Hk; apply in_map_iff in Hk as ([k' row] & <- & Hk); apply in_map_iff; exists (k', row); (split; [reflexivity | apply HS; exact Hk]).
    + intros [k row] H. cbn. apply HS, A in H. rewrite H. apply row_eqb_ok. reflexivity.
Qed.

(** ** Comparing *)
(** Without conditioning variables, == answers whether the tables are the same. *)
Theorem C70_unconditioned : forall a b, is_dict (d_probs a) -> is_dict (d_probs b) -> d_cond a = [] -> d_cond b = [] ->
  exists t, dist_eq a b = Ok t /\ (t = true <-> same_table (d_probs a) (d_probs b)).
Proof.
  intros a b Ha Hb Ea Eb. exists (dict_eqb (d_probs a) (d_probs b)). split; [|apply dict_eqb_ok; assumption].
  unfold dist_eq. rewrite Ea, Eb. cbn. rewrite Bool.andb_true_r. reflexivity.
Qed.
(** With different numbers of conditioning variables it answers False. *)
Theorem C70_different_number_of_parents : forall a b, length (d_cond a) <> length (d_cond b) -> dist_eq a b = Ok false.
Proof. intros a b H. unfold dist_eq. apply Nat.eqb_neq in H. rewrite H. cbn. rewrite Bool.andb_false_r. reflexivity. Qed.
(** Two conditioned distributions are never reported equal: with the same table (and equally many
    conditioning variables) the comparison fails, with different tables it answers False. *)
Theorem C70_conditioned_never_equal_refuted : forall a b, is_dict (d_probs a) -> is_dict (d_probs b) ->
  d_cond a <> [] -> length (d_cond a) = length (d_cond b) ->
  (same_table (d_probs a) (d_probs b) -> dist_eq a b = Err AttributeError) /\
  (~ same_table (d_probs a) (d_probs b) -> dist_eq a b = Ok false).
Proof.
  intros a b Ha Hb Hc HL. unfold dist_eq. rewrite HL, Nat.eqb_refl. cbn [negb].
  destruct (d_cond a) as [|x ca]; [congruence|]. destruct (d_cond b) as [|y cb]; [discriminate|]. cbn [combine foldM]. split; intros H.
  - rewrite (proj2 (dict_eqb_ok _ _ Ha Hb) H). reflexivity.
  - destruct (dict_eqb (d_probs a) (d_probs b)) eqn:E; [destruct H; apply dict_eqb_ok; assumption|]. cbn [bind].
    assert (F : forall (l : list (nat * nat)), foldM (fun (e : bool) _ => if e then Err AttributeError else Ok false) l false = Ok false) by (induction l; [reflexivity | cbn; assumption]).
    rewrite F. reflexivity.
Qed.
(** In particular a conditioned distribution cannot be compared with its own copy, or with itself. *)
Theorem C70_copy_is_not_equal_refuted : forall a, is_dict (d_probs a) -> d_cond a <> [] ->
  dist_eq a (dist_copy a) = Err AttributeError /\ dist_eq a a = Err AttributeError.
Proof.
  intros a Ha Hc. split; apply (C70_conditioned_never_equal_refuted a _ Ha Ha Hc eq_refl); intros k row; reflexivity.
Qed.
(** The comparison never looks at the values the conditioning variables can take, nor at their names. *)
Theorem C70_only_the_number_of_parents_counts : forall a b c, length (d_cond b) = length (d_cond c) -> d_probs b = d_probs c -> dist_eq a b = dist_eq a c.
Proof.
  intros a b c HL HP. unfold dist_eq. rewrite HP, HL. destruct (length (d_cond a) =? length (d_cond c)); cbn [negb]; [|reflexivity].
  f_equal. generalize (dict_eqb (d_probs a) (d_probs c)). revert HL. generalize (d_cond a) (d_cond b) (d_cond c).
  induction l as [|x l IH]; intros m n HL t; [reflexivity|]. destruct m as [|y m], n as [|z n]; try discriminate; [reflexivity|]. cbn.
  destruct t; [reflexivity|]. cbn. apply IH. cbn in HL. lia.
Qed.

(** ** Copying *)
Lemma upd_length {A} (f : A -> A) r l : length (upd f r l) = length l.
Proof. unfold upd. rewrite map_length, combine_length, seq_length. lia. Qed.
Lemma upd_nth {A} (f : A -> A) r l i : nth_error (upd f r l) i = option_map (fun x => if Nat.eqb i r then f x else x) (nth_error l i).
Proof.
  unfold upd. enough (H : forall a, nth_error (map (fun ix => if Nat.eqb (fst ix) r then f (snd ix) else snd ix) (combine (seq a (length l)) l)) i =
    option_map (fun x => if Nat.eqb (a + i) r then f x else x) (nth_error l i)) by (exact (H 0)).
  revert i. induction l as [|x l IH]; intros i a; [destruct i; reflexivity|]. destruct i as [|i]; cbn [seq length combine map nth_error option_map fst snd].
  - rewrite Nat.add_0_r. reflexivity.
  - rewrite IH. rewrite <- Nat.add_succ_comm. reflexivity.
Qed.
(** which object a request works on *)
Definition target (a : dop) : nat := match a with DCopy r => r | DFinalize r => r | DEdit r _ _ => r end.
Definition changes (a : dop) : Prop := match a with DCopy _ => False | _ => True end.
(** A copy has the tables of its original at that moment, and from then on the two do not influence each
    other: whatever is done to other objects, an object stays as it is. *)
Theorem C70_copy_is_independent : forall h r d, nth_error h r = Some d ->
  (exists c, nth_error (dstep h (DCopy r)) (length h) = Some c /\ d_probs c = d_probs d /\ d_cond c = d_cond d /\ forall k roll, dist_sample c k roll = dist_sample d k roll) /\
  (forall ops i x, nth_error h i = Some x -> (forall a, In a ops -> changes a -> target a <> i) -> nth_error (fold_left dstep ops h) i = Some x).
Proof.
  intros h r d Hd. split.
  - exists (dist_copy d). cbn [dstep]. rewrite Hd. split; [rewrite nth_error_app2, Nat.sub_diag by lia; reflexivity|]. repeat split; reflexivity.
  - intros ops. clear r d Hd. revert h. induction ops as [|a ops IH]; intros h i x Hx Ha; [exact Hx|]. cbn [fold_left]. apply IH; [|intros a' H; apply Ha; right; exact H].
    assert (HI : i < length h) by (apply nth_error_Some; congruence). specialize (Ha a (or_introl eq_refl)).
    destruct a as [r|r|r k row]; cbn [dstep target] in *.
    + destruct (nth_error h r); [|exact Hx]. rewrite nth_error_app1 by exact HI. exact Hx.
    + specialize (Ha Logic.I). rewrite upd_nth, Hx. cbn. replace (i =? r) with false by (symmetry; apply Nat.eqb_neq; congruence). reflexivity.
    + specialize (Ha Logic.I). rewrite upd_nth, Hx. cbn. replace (i =? r) with false by (symmetry; apply Nat.eqb_neq; congruence). reflexivity.
Qed.
(** Sampling uses the rows as they were at the last finalize: an assignment to the table is not seen
    until the distribution is finalised again. *)
Theorem C70_sampling_needs_finalize : forall a k row k' roll,
  dist_sample (dist_edit k row a) k' roll = dist_sample a k' roll /\
  dist_sample (dist_finalize (dist_edit k row a)) k' roll =
    if key_eqb k' k then Ok (sample_roll roll (cumulative row)) else dist_sample (dist_finalize a) k' roll.
Proof.
  intros a k row k' roll. split; [reflexivity|]. unfold dist_sample, dist_finalize, dist_edit. cbn [d_cumul d_probs].
  assert (M : forall d : list (key * list R), assoc key_eqb k' (map (fun kr => (fst kr, cumulative (snd kr))) d) = option_map cumulative (assoc key_eqb k' d)).
  { induction d as [|[x r] d IH]; [reflexivity|]. cbn. destruct (key_eqb k' x); [reflexivity | exact IH]. }
  rewrite !M, (d_set _ key_eqb_ok). destruct (key_eqb k' k); [reflexivity | reflexivity].
Qed.

(** The table with indexed conditioning values is there exactly if some finalize since the object was made
    found no unconditioned row: a copy starts without it, and finalising a table that has an unconditioned
    row keeps what was there before. *)
Theorem C70_indexed_table : forall a,
  d_indexed (dist_copy a) = false /\
  (forall k row, d_indexed (dist_edit k row a) = d_indexed a) /\
  (d_indexed (dist_finalize a) = true <-> d_indexed a = true \/ ~ In None (map fst (d_probs a))) /\
  (d_indexed (dist_finalize (dist_copy a)) = true <-> ~ In None (map fst (d_probs a))).
Proof.
  assert (H : forall b i, (i || negb (existsb (fun kr : key * list R => match fst kr with None => true | _ => false end) (d_probs b)))%bool = true <-> i = true \/ ~ In None (map fst (d_probs b))).
  { intros b i. rewrite Bool.orb_true_iff, Bool.negb_true_iff, <- Bool.not_true_iff_false, existsb_exists.
    apply or_iff_compat_l, not_iff_compat. rewrite in_map_iff. split; intros (kr & H1 & H2); exists kr.
    - destruct (fst kr); [discriminate|]. auto.
    - rewrite H1. auto. }
  intros a. split; [reflexivity|]. split; [reflexivity|]. split; [apply H|]. unfold dist_finalize, dist_copy. cbn [d_indexed d_probs]. rewrite H. intuition discriminate.
Qed.
Print Assumptions C70_indexed_table.
(** Two finalised objects with the same rows may differ in it: finalise a conditioned table, then add an
    unconditioned row. *)
Theorem C70_indexed_table_is_not_removed_refuted : forall a row, ~ In None (map fst (d_probs a)) ->
  d_indexed (dist_finalize (dist_edit None row (dist_finalize a))) = true /\
  d_indexed (dist_finalize (dist_copy (dist_edit None row (dist_finalize a)))) = false.
Proof.
  intros a row Ha. split.
  - apply C70_indexed_table. left. destruct (C70_indexed_table (dist_finalize a)) as (_ & H & _). rewrite H. apply C70_indexed_table. auto.
  - apply Bool.not_true_iff_false. intros H. apply C70_indexed_table in H. apply H. cbn [dist_edit d_probs]. clear. induction (d_probs (dist_finalize a)) as [|(k, r) l IH]; cbn [assoc_set map fst].
    + left. reflexivity.
    + destruct (key_eqb None k) eqn:E; cbn [map fst]; [left|right; assumption]. destruct k; [discriminate|reflexivity].
Qed.
Print Assumptions C70_indexed_table_is_not_removed_refuted.

(** ** Printing *)
(** str() works without conditioning variables only. *)
Theorem C70_str_of_conditioned_refuted : forall a, (d_cond a = [] -> dist_str a = Ok tt) /\ (d_cond a <> [] -> dist_str a = Err AttributeError).
Proof. intros a. unfold dist_str. destruct (d_cond a); split; intros H; congruence. Qed.

(** a conditioned distribution with two rows *)
Definition two_rows : dist := {| d_probs := [(Some [10], [1/2; 1/2]%R); (Some [11], [1; 0]%R)]; d_cond := [3]; d_cumul := []; d_indexed := false |}.
Definition plain_row (p : R) : dist := {| d_probs := [(None, [p; 1 - p]%R)]; d_cond := []; d_cumul := []; d_indexed := false |}.
Example C70_nonvacuous : is_dict (d_probs two_rows) /\ d_cond two_rows <> [] /\ is_dict (d_probs (plain_row 1)) /\
  same_table (d_probs (plain_row 1)) (d_probs (plain_row 1)) /\ ~ same_table (d_probs (plain_row 1)) (d_probs (plain_row 0)).
Proof.
  split; [repeat constructor; cbn; intuition discriminate|]. split; [discriminate|]. split; [repeat constructor; cbn; intuition|].
  split; [intros k row; reflexivity|]. intros H. destruct (proj1 (H None [1; 1 - 1]%R) (or_introl eq_refl)) as [E | []]. inversion E. lra.
Qed.
Example C70_copy_nonvacuous : nth_error (fold_left dstep [DCopy 0; DEdit 0 None [1]%R; DFinalize 0] [two_rows]) 1 = Some (dist_copy two_rows).
Proof. reflexivity. Qed.
