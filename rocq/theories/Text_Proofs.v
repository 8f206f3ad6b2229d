(** When a list of labels survives being written to a text file and read back. *)
From Verif Require Import Base Matrix_Model Text_Model.

(** a label that survives: no line break inside, no white space at either end *)
Definition clean_label (t : text) : Prop :=
  ~ In LF t /\ ~ In CR t /\
  (forall c t', t = c :: t' -> is_space c = false) /\ (forall c t', t = t' ++ [c] -> is_space c = false).

Lemma lines_from_app x t : ~ In LF x -> forall cur, lines_from cur (x ++ t) = lines_from (cur ++ x) t.
Proof.
  induction x as [|c x IH]; intros H cur; [rewrite app_nil_r; reflexivity|]. simpl.
  destruct (Nat.eqb_spec c LF) as [->|]; [destruct H; left; reflexivity|].
  rewrite IH by (intros Hx; apply H; right; assumption). rewrite <- app_assoc. reflexivity.
Qed.
Lemma lines_one x : ~ In LF x -> file_lines x = match x with [] => [] | _ => [x] end.
Proof.
  intros H. unfold file_lines. rewrite <- (app_nil_r x) at 1. rewrite lines_from_app by assumption. reflexivity.
Qed.
Lemma lines_cons x t : ~ In LF x -> file_lines (x ++ LF :: t) = (x ++ [LF]) :: file_lines t.
Proof. intros H. unfold file_lines. rewrite lines_from_app by assumption. simpl. reflexivity. Qed.

Lemma universal_id t : ~ In CR t -> universal_newlines t = t.
Proof.
  induction t as [|c t IH]; intros H; [reflexivity|]. cbn [universal_newlines].
  destruct (Nat.eqb_spec c CR) as [->|]; [destruct H; left; reflexivity|]. f_equal. apply IH. intros Ht; apply H; right; assumption.
Qed.
Lemma universal_no_CR t : ~ In CR (universal_newlines t).
Proof.
  assert (G : forall n t, length t <= n -> ~ In CR (universal_newlines t)).
  { induction n as [|n IH]; intros [|c t'] Hl; simpl in Hl; try lia; [intros []|intros []|].
    cbn [universal_newlines]. destruct (Nat.eqb_spec c CR) as [->|Hc].
    - destruct t' as [|d t'']; [intros [H|[]]; discriminate|]. simpl in Hl.
      destruct (d =? LF).
      + intros [H|H]; [discriminate|]. revert H. apply IH. lia.
      + intros [H|H]; [discriminate|]. revert H. apply IH. simpl. lia.
    - intros [H|H]; [congruence|]. revert H. apply IH. lia. }
  apply (G (length t)). lia.
Qed.

(** every line is a body without line feed, possibly followed by one *)
Lemma lines_shape t : forall cur, ~ In LF cur -> Forall (fun l => exists b, ~ In LF b /\ (l = b \/ l = b ++ [LF])) (lines_from cur t).
Proof.
  induction t as [|c t IH]; intros cur H; simpl.
  - destruct cur; [constructor|]. constructor; [|constructor]. eexists. split; [exact H|left; reflexivity].
  - destruct (Nat.eqb_spec c LF) as [->|Hc].
    + constructor; [exists cur; split; [assumption|right; reflexivity]|]. apply IH. intros [].
    + apply IH. rewrite in_app_iff. intros [Hi|[Hi|[]]]; [contradiction|congruence].
Qed.
Lemma lines_incl t : forall cur l c, In l (lines_from cur t) -> In c l -> In c cur \/ In c t.
Proof.
  induction t as [|x t IH]; intros cur l c Hl Hc; simpl in Hl.
  - destruct cur; [destruct Hl|]. destruct Hl as [<-|[]]. left; assumption.
  - destruct (x =? LF).
    + destruct Hl as [<-|Hl].
      * apply in_app_iff in Hc as [Hc|[->|[]]]; [left; assumption|right; left; reflexivity].
      * destruct (IH _ _ _ Hl Hc) as [[]|H]. right; right; assumption.
    + destruct (IH _ _ _ Hl Hc) as [H|H]; [|right; right; assumption].
      apply in_app_iff in H as [H|[->|[]]]; [left; assumption|right; left; reflexivity].
Qed.

(** ** strip *)
Lemma lstrip_incl t c : In c (lstrip t) -> In c t.
Proof. induction t as [|x t IH]; simpl; [exact (fun H => H)|]. destruct (is_space x); [right; auto|exact (fun H => H)]. Qed.
Lemma strip_incl t c : In c (strip t) -> In c t.
Proof. unfold strip. intros H. apply in_rev in H. apply lstrip_incl in H. apply in_rev in H. apply lstrip_incl; assumption. Qed.
Lemma lstrip_head t c t' : lstrip t = c :: t' -> is_space c = false.
Proof. induction t as [|x t IH]; simpl; [discriminate|]. destruct (is_space x) eqn:E; [exact IH|]. intros H; inversion H; subst; assumption. Qed.
Lemma lstrip_suffix t : exists p, t = p ++ lstrip t.
Proof.
  induction t as [|x t (p & IH)]; [exists []; reflexivity|]. simpl. destruct (is_space x); [|exists []; reflexivity].
  exists (x :: p). simpl. f_equal. exact IH.
Qed.
Lemma strip_last t c t' : strip t = t' ++ [c] -> is_space c = false.
Proof.
  unfold strip. intros H. apply (f_equal (@rev nat)) in H. rewrite rev_involutive, rev_app_distr in H. simpl in H.
  eapply lstrip_head; exact H.
Qed.
Lemma strip_head t c t' : strip t = c :: t' -> is_space c = false.
Proof.
  unfold strip. intros H. destruct (lstrip_suffix (rev (lstrip t))) as (p & Hp).
  apply (f_equal (@rev nat)) in Hp. rewrite rev_involutive, rev_app_distr, H in Hp. simpl in Hp.
  eapply lstrip_head. exact Hp.
Qed.
Lemma lstrip_id t : (forall c t', t = c :: t' -> is_space c = false) -> lstrip t = t.
Proof. destruct t as [|c t]; intros H; [reflexivity|]. simpl. rewrite (H c t eq_refl). reflexivity. Qed.
Lemma rev_head_last (t : text) c t' : rev t = c :: t' -> t = rev t' ++ [c].
Proof. intros H. apply (f_equal (@rev nat)) in H. rewrite rev_involutive in H. exact H. Qed.
Lemma strip_id t : (forall c t', t = c :: t' -> is_space c = false) -> (forall c t', t = t' ++ [c] -> is_space c = false) -> strip t = t.
Proof.
  intros H1 H2. unfold strip. rewrite (lstrip_id t H1). rewrite (lstrip_id (rev t)); [apply rev_involutive|].
  intros c t' E. apply rev_head_last in E. eapply H2; exact E.
Qed.
Lemma lstrip_snoc_space t : lstrip (t ++ [LF]) = match lstrip t with [] => [] | u => u ++ [LF] end.
Proof. induction t as [|x t IH]; [reflexivity|]. simpl. destruct (is_space x); [exact IH|reflexivity]. Qed.
Lemma strip_newline t : strip (t ++ [LF]) = strip t.
Proof.
  unfold strip. rewrite lstrip_snoc_space. destruct (lstrip t) as [|c u]; [reflexivity|].
  rewrite (rev_app_distr (c :: u) [LF]). cbn [rev app]. cbn [lstrip]. reflexivity.
Qed.

Lemma strip_line_clean l b : ~ In LF b -> (l = b \/ l = b ++ [LF]) -> strip l = strip b /\ ~ In LF (strip l).
Proof.
  intros Hb [->| ->]; [|rewrite strip_newline]; (split; [reflexivity|]); intros H; apply strip_incl in H; contradiction.
Qed.

(** ** the round trip *)
Lemma join_cons2 x y l : join_lines (x :: y :: l) = x ++ LF :: join_lines (y :: l).
Proof. reflexivity. Qed.
Lemma lines_join_length L : Forall (fun t => ~ In LF t) L -> L <> [] -> last L [0] = [] -> S (length (file_lines (join_lines L))) = length L.
Proof.
  induction L as [|x L IH]; intros HF Hne Hl; [contradiction|]. inversion HF; subst. destruct L as [|y L].
  - simpl in Hl. subst x. reflexivity.
  - rewrite join_cons2, lines_cons by assumption. cbn [length]. f_equal. apply IH; [assumption|discriminate|exact Hl].
Qed.
Lemma join_no c L : c <> LF -> Forall (fun t => ~ In c t) L -> ~ In c (join_lines L).
Proof.
  intros Hc. induction L as [|x L IH]; intros HF; [intros []|]. inversion HF; subst. destruct L as [|y L]; [assumption|].
  rewrite join_cons2, in_app_iff. intros [H|[H|H]]; [contradiction|congruence|]. revert H. apply IH. assumption.
Qed.
Lemma read_clean L : Forall clean_label L -> last L [0] <> [] -> map strip (file_lines (join_lines L)) = L.
Proof.
  induction L as [|x L IH]; intros HF Hl; [reflexivity|]. inversion HF as [|? ? (N1 & N2 & N3 & N4) HF']; subst.
  destruct L as [|y L].
  - simpl in Hl. simpl join_lines. rewrite lines_one by assumption. destruct x; [contradiction|]. simpl map. rewrite strip_id by assumption. reflexivity.
  - rewrite join_cons2, lines_cons by assumption. simpl map. rewrite strip_newline, strip_id by assumption. f_equal. apply IH; assumption.
Qed.
Lemma no_CR_write L : Forall clean_label L -> ~ In CR (join_lines L).
Proof. intros HF. apply join_no; [discriminate|]. eapply Forall_impl; [|exact HF]. intros t (_ & H & _). exact H. Qed.

Theorem labels_roundtrip L : read_labels (write_labels L) = L <-> Forall clean_label L /\ (L = [] \/ last L [0] <> []).
Proof.
  unfold read_labels, write_labels. split.
  - intros E.
    assert (C : Forall clean_label L).
    { rewrite <- E. apply Forall_forall. intros t Ht. apply in_map_iff in Ht as (l & <- & Hl).
      pose proof (lines_shape (universal_newlines (join_lines L)) [] (fun H => H)) as S. rewrite Forall_forall in S.
      destruct (S l Hl) as (b & Hb & Hlb). destruct (strip_line_clean l b Hb Hlb) as [_ HLF].
      split; [exact HLF|]. split; [|split; [apply strip_head|apply strip_last]].
      intros HC. apply strip_incl in HC. destruct (lines_incl _ _ _ _ Hl HC) as [[]|H]. revert H. apply universal_no_CR. }
    split; [exact C|]. destruct L as [|x L]; [left; reflexivity|right]. intros Hl.
    rewrite universal_id in E by (apply no_CR_write; assumption).
    assert (HLF : Forall (fun t => ~ In LF t) (x :: L)) by (eapply Forall_impl; [|exact C]; intros t (H & _); exact H).
    pose proof (lines_join_length (x :: L) HLF ltac:(discriminate) Hl) as Hlen.
    apply (f_equal (@length text)) in E. rewrite map_length in E. unfold text in *. lia.
  - intros (C & Hl). rewrite universal_id by (apply no_CR_write; assumption). destruct Hl as [->|Hl]; [reflexivity|].
    apply read_clean; assumption.
Qed.
