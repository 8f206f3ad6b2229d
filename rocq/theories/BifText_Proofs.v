(** The parser reads exactly the texts that the specification describes. *)
From Coq Require Import String.
From Verif Require Import Base Matrix_Model BifText_Model BifText_Spec.
Open Scope nat_scope.

(** ** characters *)
Lemma skip_white w t : white w -> skip (w ++ t) = skip t.
Proof.
  induction w as [|c w IH]; intros H; [reflexivity|]. cbn [skip app]. rewrite (H c (or_introl eq_refl)). apply IH. intros d Hd. apply H. right. exact Hd.
Qed.
Lemma skip_split t : exists w, white w /\ t = w ++ skip t.
Proof.
  induction t as [|c t (w & Hw & E)]; [exists []; split; [intros c []|reflexivity]|]. cbn [skip]. destruct (is_ws c) eqn:Ec.
  - exists (c :: w). split; [intros d [<- |Hd]; auto|]. cbn. f_equal. exact E.
  - exists []. split; [intros d []|reflexivity].
Qed.
Lemma skip_cons c t : is_ws c = false -> skip (c :: t) = c :: t.
Proof. intros H. cbn [skip]. rewrite H. reflexivity. Qed.
Lemma skip_head t : match skip t with c :: _ => is_ws c = false | [] => True end.
Proof. induction t as [|c t IH]; [exact Logic.I|]. cbn [skip]. destruct (is_ws c) eqn:E; [exact IH|exact E]. Qed.
Lemma skip_skip t : skip (skip t) = skip t.
Proof. pose proof (skip_head t). destruct (skip t) as [|c s]; [reflexivity|apply skip_cons; assumption]. Qed.
Lemma skip_all w : white w <-> skip w = [].
Proof.
  split; intros H; [rewrite <- (app_nil_r w), (skip_white w [] H); reflexivity|].
  destruct (skip_split w) as (w' & Hw & E). rewrite H, app_nil_r in E. subst. exact Hw.
Qed.

Lemma strip_prefix_app s t : strip_prefix s (s ++ t) = Some t.
Proof. induction s as [|c s IH]; [reflexivity|]. cbn [strip_prefix app]. rewrite Nat.eqb_refl. exact IH. Qed.
Lemma strip_prefix_inv s t r : strip_prefix s t = Some r -> t = s ++ r.
Proof.
  revert t. induction s as [|c s IH]; intros t H; [cbn in *; congruence|]. destruct t as [|d t]; [discriminate|]. cbn [strip_prefix] in H.
  destruct (Nat.eqb_spec c d); [|discriminate]. subst. cbn. f_equal. apply IH, H.
Qed.

Definition stops (p : nat -> bool) (t : text) : Prop := match t with c :: _ => p c = false | [] => True end.
Lemma span_app p a r : (forall c, In c a -> p c = true) -> stops p r -> span p (a ++ r) = (a, r).
Proof.
  induction a as [|c a IH]; intros H Hr.
  - destruct r as [|c r]; [reflexivity|]. cbn in *. rewrite Hr. reflexivity.
  - cbn [app span]. rewrite (H c (or_introl eq_refl)), IH; [reflexivity| |exact Hr]. intros d Hd. apply H. right. exact Hd.
Qed.
Lemma span_inv p t a r : span p t = (a, r) -> t = a ++ r /\ (forall c, In c a -> p c = true) /\ stops p r.
Proof.
  revert a r. induction t as [|c t IH]; intros a r H; cbn [span] in H.
  - injection H as <- <-. repeat split. intros c [].
  - destruct (p c) eqn:Ec.
    + destruct (span p t) as [a' r']. injection H as <- <-. destruct (IH _ _ eq_refl) as (-> & Ha & Hr). repeat split; [|exact Hr]. intros d [<- |Hd]; auto.
    + injection H as <- <-. repeat split; [intros d []|exact Ec].
Qed.
Lemma run_app p w a r : white w -> a <> [] -> (forall c, In c a -> p c = true) -> (forall c, p c = true -> is_ws c = false) -> stops p r ->
  run p (w ++ a ++ r) = Some (a, r).
Proof.
  intros Hw Ha Hp Hws Hr. unfold run. rewrite (skip_white _ _ Hw). destruct a as [|c a]; [congruence|].
  cbn [app]. rewrite (skip_cons c) by (apply Hws, Hp; left; reflexivity).
  change (c :: a ++ r) with ((c :: a) ++ r). rewrite (span_app _ _ _ Hp Hr). reflexivity.
Qed.
Lemma run_inv p t a r : run p t = Some (a, r) -> (exists w, white w /\ t = w ++ a ++ r) /\ a <> [] /\ (forall c, In c a -> p c = true) /\ stops p r.
Proof.
  unfold run. destruct (span p (skip t)) as [a' r'] eqn:E. apply span_inv in E as (E & Hp & Hr). intros H.
  assert (a' = a /\ r' = r /\ a <> []) as (-> & -> & Ha) by (destruct a'; [discriminate|]; injection H as <- <-; repeat split; discriminate).
  split; [|auto]. destruct (skip_split t) as (w & Hw & Et). exists w. split; [exact Hw|]. rewrite Et at 1. rewrite E. reflexivity.
Qed.

(** ranges of characters *)
Ltac by_bool := repeat match goal with
  | H : (_ || _)%bool = true |- _ => apply orb_true_iff in H as [H|H]
  | H : (_ && _)%bool = true |- _ => apply andb_true_iff in H as [? H]
  | H : (_ =? _) = true |- _ => apply Nat.eqb_eq in H
  | H : (_ <=? _) = true |- _ => apply Nat.leb_le in H
  end.
Lemma not_ws c : is_ws c = false <-> c <> 32 /\ c <> 9 /\ c <> 10 /\ c <> 12 /\ c <> 13.
Proof.
  unfold is_ws. rewrite !orb_false_iff, !Nat.eqb_neq. tauto.
Qed.
Lemma ident_not_ws c : is_ident c = true -> is_ws c = false.
Proof. intros H. apply not_ws. unfold is_ident, is_letter, is_digit in H. by_bool; lia. Qed.
Lemma value_not_ws c : is_value c = true -> is_ws c = false.
Proof. intros H. apply not_ws. unfold is_value, is_ident, is_letter, is_digit in H. by_bool; lia. Qed.
Lemma digit_not_ws c : is_digit c = true -> is_ws c = false.
Proof. intros H. apply not_ws. unfold is_digit in H. by_bool; lia. Qed.
Lemma ws_not_value c : is_ws c = true -> is_value c = false.
Proof. intros H. destruct (is_value c) eqn:E; [|reflexivity]. apply value_not_ws in E. congruence. Qed.
Lemma ws_not_digit c : is_ws c = true -> is_digit c = false.
Proof. intros H. destruct (is_digit c) eqn:E; [|reflexivity]. apply digit_not_ws in E. congruence. Qed.

Section Tokens.
Context {R : text -> Prop}.
Notation spelled := (spelled_then R).
(** ** tokens *)
(** the first token of [ks] starts with [c] *)
Definition starts (ks : list token) (c : nat) : Prop := exists k ks' s, ks = k :: ks' /\ chars k = c :: s.
Lemma spelled_head ks c t : starts ks c -> spelled ks t -> exists c' t', t = c' :: t' /\ (is_ws c' = true \/ c' = c).
Proof.
  intros (k & ks' & s & -> & E) H. inversion H as [|w k0 ks0 t0 Hw Hn Hs]; subst. rewrite E. destruct w as [|c' w].
  - exists c, (s ++ t0). split; [reflexivity|right; reflexivity].
  - exists c', (w ++ (c :: s) ++ t0). split; [reflexivity|]. left. apply Hw. left. reflexivity.
Qed.
Lemma spelled_skip ks c t : starts ks c -> is_ws c = false -> spelled ks t -> exists t', skip t = c :: t'.
Proof.
  intros (k & ks' & s & -> & E) Hc H. inversion H as [|w k0 ks0 t0 Hw Hn Hs]; subst. rewrite (skip_white _ _ Hw), E. exists (s ++ t0). apply (skip_cons c _ Hc).
Qed.
Lemma spelled_stops p ks c t : starts ks c -> p c = false -> (forall c', is_ws c' = true -> p c' = false) -> spelled ks t -> stops p t.
Proof.
  intros Hs Hp Hw H. destruct (spelled_head ks c t Hs H) as (c' & t' & -> & [Hc| ->]); cbn; auto.
Qed.
(** keywords and punctuation *)
Lemma lit_inv s t r ks : lit s t = Some r -> spelled ks r -> spelled (Key s :: ks) t.
Proof.
  intros H Hr. apply strip_prefix_inv in H. destruct (skip_split t) as (w & Hw & E). rewrite E, H. apply (spelled_token R w (Key s)); [exact Hw|discriminate|exact Hr].
Qed.
Lemma lit_key c s ks t : is_ws c = false -> spelled (Key (c :: s) :: ks) t -> exists r, lit (c :: s) t = Some r /\ spelled ks r.
Proof.
  intros Hc H. inversion H as [|w k0 ks0 t0 Hw Hn Hs]; subst. exists t0. split; [|exact Hs]. unfold lit. rewrite (skip_white _ _ Hw). cbn [chars app].
  rewrite (skip_cons c _ Hc). apply (strip_prefix_app (c :: s) t0).
Qed.
Lemma lit_none c s ks c' t : starts ks c' -> is_ws c' = false -> c <> c' -> spelled ks t -> lit (c :: s) t = None.
Proof.
  intros Hs Hw Hc H. destruct (spelled_skip ks c' t Hs Hw H) as (t' & E). unfold lit. rewrite E. cbn [strip_prefix]. destruct (Nat.eqb_spec c c'); [congruence|reflexivity].
Qed.
(** names, counts, values *)
Lemma identifier_inv t s r : identifier t = Some (s, r) -> good_name s /\ forall ks, spelled ks r -> spelled (Name s :: ks) t.
Proof.
  intros H. apply run_inv in H as ((w & Hw & ->) & Ha & Hp & Hr). split; [split; assumption|]. intros ks Hk. apply (spelled_token R w (Name s)); [exact Hw|intros s' E; exact Hr|exact Hk].
Qed.
Lemma identifier_ok s ks t : good_name s -> spelled (Name s :: ks) t -> exists r, identifier t = Some (s, r) /\ spelled ks r.
Proof.
  intros (Ha & Hp) H. inversion H as [|w k0 ks0 t0 Hw Hn Hs]; subst. exists t0. split; [|exact Hs]. apply run_app; auto; [exact ident_not_ws|]. apply (Hn s eq_refl).
Qed.
Lemma count_inv t s r : run is_digit t = Some (s, r) -> good_count s /\ forall ks, spelled ks r -> spelled (Count s :: ks) t.
Proof.
  intros H. apply run_inv in H as ((w & Hw & ->) & Ha & Hp & Hr). split; [split; assumption|]. intros ks Hk. apply (spelled_token R w (Count s)); [exact Hw|discriminate|exact Hk].
Qed.
Lemma count_ok s ks c t : good_count s -> starts ks c -> is_digit c = false -> spelled (Count s :: ks) t -> exists r, run is_digit t = Some (s, r) /\ spelled ks r.
Proof.
  intros (Ha & Hp) Hs Hc H. inversion H as [|w k0 ks0 t0 Hw Hn Hk]; subst. exists t0. split; [|exact Hk]. apply run_app; auto; [exact digit_not_ws|].
  apply (spelled_stops _ ks c); auto. exact ws_not_digit.
Qed.
(** what [quoted_rest] consumes, from inside an escape or from outside *)
Lemma quoted_rest_inv t : forall even q r, quoted_rest even t = Some (q, r) ->
  exists q', q = q' ++ [34] /\ t = q ++ r /\ (if even then escaped q' else exists c q'', q' = c :: q'' /\ c <> 10 /\ escaped q'').
Proof.
  induction t as [|c t IH]; intros even q r H; cbn [quoted_rest] in H; [discriminate|].
  destruct ((c =? 34) && even)%bool eqn:E1.
  - injection H as <- <-. apply andb_true_iff in E1 as [E1 ->]. apply Nat.eqb_eq in E1. subst c. exists []. repeat split. constructor.
  - destruct (Nat.eqb_spec c 10); [discriminate|]. destruct (quoted_rest (if c =? 92 then negb even else true) t) as [[q1 r1]|] eqn:E; [|discriminate]. injection H as <- <-.
    apply IH in E as (q' & -> & -> & Hq). exists (c :: q'). repeat split. destruct even.
    + rewrite andb_true_r in E1. apply Nat.eqb_neq in E1. destruct (Nat.eqb_spec c 92).
      * subst c. cbn in Hq. destruct Hq as (d & q'' & -> & Hd & Hq). apply escaped_pair; assumption.
      * apply escaped_plain; assumption.
    + exists c, q'. repeat split; [assumption|]. destruct (c =? 92); exact Hq.
Qed.
Lemma quoted_rest_ok q r : escaped q -> quoted_rest true (q ++ 34 :: r) = Some (q ++ [34], r).
Proof.
  induction 1 as [|c q H1 H2 H3 H IH|c q H1 H IH]; [reflexivity| |].
  - cbn [quoted_rest app]. apply Nat.eqb_neq in H1, H2, H3. rewrite H1, H2, H3. cbn [andb]. rewrite IH. reflexivity.
  - cbn [quoted_rest app]. cbn [Nat.eqb andb negb]. rewrite andb_false_r. apply Nat.eqb_neq in H1. rewrite H1. replace (if c =? 92 then true else true) with true by (destruct (c =? 92); reflexivity).
    rewrite IH. reflexivity.
Qed.
Lemma property_value_inv t v r : property_value t = Some (v, r) -> (bare v \/ quoted v) /\ forall ks, spelled ks r -> spelled (Value v :: ks) t.
Proof.
  assert (Hrun : run is_value t = Some (v, r) -> (bare v \/ quoted v) /\ forall ks, spelled ks r -> spelled (Value v :: ks) t).
  { intros H. apply run_inv in H as ((w & Hw & ->) & Ha & Hp & Hr). split; [left; split; assumption|]. intros ks Hk. apply (spelled_token R w (Value v)); [exact Hw|discriminate|exact Hk]. }
  unfold property_value. destruct (skip t) as [|c t'] eqn:E; [exact Hrun|]. intros H.
  destruct (Nat.eq_dec c 34) as [->|Hc].
  - destruct (quoted_rest true t') as [[q r']|] eqn:Eq; [|discriminate]. injection H as <- <-. apply quoted_rest_inv in Eq as (q' & -> & -> & Hq).
    split; [right; exists q'; split; [exact Hq|reflexivity]|]. intros ks Hk. destruct (skip_split t) as (w & Hw & Et). rewrite Et, E. apply (spelled_token R w (Value (34 :: q' ++ [34]))); [exact Hw|discriminate|exact Hk].
  - apply Hrun. revert H. do 35 (destruct c as [|c]; [try congruence|]); auto.
Qed.
Lemma property_value_ok v ks c t : bare v \/ quoted v -> starts ks c -> is_value c = false -> spelled (Value v :: ks) t -> exists r, property_value t = Some (v, r) /\ spelled ks r.
Proof.
  intros Hv Hs Hc H. inversion H as [|w k0 ks0 t0 Hw Hn Hk]; subst. exists t0. split; [|exact Hk]. cbn [chars]. unfold property_value. destruct Hv as [(Ha & Hp)|(q & Hq & ->)].
  - assert (Hr : run is_value (w ++ v ++ t0) = Some (v, t0)) by (apply run_app; auto; [exact value_not_ws|apply (spelled_stops _ ks c); auto; exact ws_not_value]).
    rewrite Hr, (skip_white _ _ Hw). destruct v as [|d v]; [congruence|]. assert (Hd : is_value d = true) by (apply Hp; left; reflexivity). cbn [app]. rewrite (skip_cons d) by (apply value_not_ws, Hd).
    do 35 (destruct d as [|d]; [try reflexivity; discriminate|]). reflexivity.
  - rewrite (skip_white _ _ Hw). cbn [app]. rewrite (skip_cons 34) by reflexivity. rewrite <- app_assoc. cbn [app]. rewrite (quoted_rest_ok _ _ Hq). reflexivity.
Qed.

(** numbers *)
Definition exponent_chars (x : nat * option nat * text) : text :=
  let '(e, sign, ds) := x in e :: match sign with Some s => [s] | None => [] end ++ ds.
Definition good_exponent (x : nat * option nat * text) : Prop :=
  let '(e, sign, ds) := x in (e = 101 \/ e = 69) /\ (forall s, sign = Some s -> s = 43 \/ s = 45) /\ ds <> [] /\ digits ds.
Lemma exponent_inv t x r : exponent t = Some (x, r) -> good_exponent x /\ t = exponent_chars x ++ r /\ stops is_digit r.
Proof.
  unfold exponent. destruct t as [|e t1]; [discriminate|]. destruct ((e =? 101) || (e =? 69))%bool eqn:Ee; [|discriminate].
  assert (He : e = 101 \/ e = 69) by (by_bool; auto).
  set (st := match t1 with [] => _ | _ => _ end). assert (Hst : t1 = match fst st with Some s => [s] | None => [] end ++ snd st /\ forall s, fst st = Some s -> s = 43 \/ s = 45).
  { subst st. destruct t1 as [|c t2]; [split; [reflexivity|discriminate]|]. destruct ((c =? 43) || (c =? 45))%bool eqn:Ec; [|split; [reflexivity|discriminate]].
    split; [reflexivity|]. intros s E. injection E as <-. by_bool; auto. }
  destruct st as [sign t2]. cbn [fst snd] in Hst. destruct Hst as (-> & Hs). destruct (span is_digit t2) as [ds r'] eqn:E. apply span_inv in E as (-> & Hd & Hr). intros H.
  assert (x = (e, sign, ds) /\ r' = r /\ ds <> []) as (-> & -> & Hne) by (destruct ds; [discriminate|]; injection H as <- <-; repeat split; discriminate).
  repeat split; auto. cbn. rewrite app_assoc. reflexivity.
Qed.
Lemma exponent_ok x r : good_exponent x -> stops is_digit r -> exponent (exponent_chars x ++ r) = Some (x, r).
Proof.
  destruct x as [[e sign] ds]. intros (He & Hs & Hne & Hd) Hr. unfold exponent, exponent_chars. cbn [app].
  replace ((e =? 101) || (e =? 69))%bool with true by (destruct He as [-> | ->]; reflexivity).
  assert (E : match (match sign with Some s => [s] | None => [] end ++ ds) ++ r with
              | c :: t2 => if (c =? 43) || (c =? 45) then (Some c, t2) else (None, (match sign with Some s => [s] | None => [] end ++ ds) ++ r)
              | [] => (None, (match sign with Some s => [s] | None => [] end ++ ds) ++ r) end = (sign, ds ++ r)).
  { destruct sign as [s|]; cbn [app].
    - destruct (Hs s eq_refl) as [-> | ->]; reflexivity.
    - destruct ds as [|d ds]; [congruence|]. cbn [app]. assert (H : is_digit d = true) by (apply Hd; left; reflexivity). unfold is_digit in H. by_bool.
      destruct (Nat.eqb_spec d 43); [lia|]. destruct (Nat.eqb_spec d 45); [lia|]. reflexivity. }
  rewrite E. rewrite (span_app is_digit ds r Hd Hr). destruct ds; [congruence|reflexivity].
Qed.
Definition ends_number (t : text) : Prop := match t with c :: _ => is_digit c = false /\ c <> 46 /\ c <> 101 /\ c <> 69 | [] => True end.
Lemma exponent_none t : ends_number t -> exponent t = None.
Proof.
  destruct t as [|c t]; [reflexivity|]. intros (_ & _ & H1 & H2). unfold exponent. apply Nat.eqb_neq in H1, H2. rewrite H1, H2. reflexivity.
Qed.
Definition exponent_part (n : number) : text := match n_exp n with Some x => exponent_chars x | None => [] end.
Lemma number_chars_eq n : number_chars n = n_int n ++ match n_frac n with Some f => 46 :: f | None => [] end ++ exponent_part n.
Proof. unfold number_chars, exponent_part. destruct (n_exp n) as [[[e s] ds]|]; reflexivity. Qed.
Lemma with_exponent_inv i f t n r : with_exponent i f t = (n, r) -> n_int n = i /\ n_frac n = f /\ t = exponent_part n ++ r /\ (forall x, n_exp n = Some x -> good_exponent x).
Proof.
  unfold with_exponent, exponent_part. destruct (exponent t) as [[x r']|] eqn:E; intros H; injection H as <- <-; cbn [n_int n_frac n_exp].
  - apply exponent_inv in E as (Hg & -> & _). repeat split. intros y Ey. injection Ey as <-. exact Hg.
  - repeat split. discriminate.
Qed.
Lemma with_exponent_ok n t : (forall x, n_exp n = Some x -> good_exponent x) -> ends_number t -> with_exponent (n_int n) (n_frac n) (exponent_part n ++ t) = (n, t).
Proof.
  intros Hx Ht. unfold with_exponent, exponent_part. destruct n as [i f x]. cbn [n_int n_frac n_exp] in *. destruct x as [x|].
  - rewrite (exponent_ok x t (Hx x eq_refl)); [reflexivity|]. destruct t as [|c t]; [exact Logic.I|apply Ht].
  - cbn [app]. rewrite (exponent_none _ Ht). reflexivity.
Qed.
Lemma good_number_eq n : good_number n <-> digits (n_int n) /\ (forall f, n_frac n = Some f -> digits f) /\ (n_int n <> [] \/ exists f, n_frac n = Some f /\ f <> []) /\ (forall x, n_exp n = Some x -> good_exponent x).
Proof.
  unfold good_number, good_exponent. split; intros (A & B & C & D); (split; [exact A|]; split; [exact B|]; split; [exact C|]).
  - intros [[e s] ds] E. apply D, E.
  - intros e s ds E. apply (D (e, s, ds) E).
Qed.
Lemma scan_number_inv t n r : scan_number t = Some (n, r) -> good_number n /\ exists w, white w /\ t = w ++ number_chars n ++ r.
Proof.
  unfold scan_number. destruct (skip_split t) as (w & Hw & Et). destruct (span is_digit (skip t)) as [i s] eqn:E. apply span_inv in E as (E & Hi & Hs).
  assert (Hwhole : match i with [] => None | _ => Some (with_exponent i None s) end = Some (n, r) -> good_number n /\ exists w, white w /\ t = w ++ number_chars n ++ r).
  { intros H. assert (H' : with_exponent i None s = (n, r) /\ i <> []) by (destruct i; [discriminate|]; split; [congruence|discriminate]). destruct H' as (H' & Hne).
    apply with_exponent_inv in H' as (<- & Hf & -> & Hx). split.
    - apply good_number_eq. split; [exact Hi|]. split; [intros f Ef; congruence|]. split; [left; exact Hne|exact Hx].
    - exists w. split; [exact Hw|]. rewrite number_chars_eq, Hf. cbn [app]. rewrite <- app_assoc, <- E. exact Et. }
  destruct s as [|c s1]; [exact Hwhole|]. destruct (Nat.eqb_spec c 46) as [->|]; [|exact Hwhole]. clear Hwhole.
  destruct (span is_digit s1) as [j s2] eqn:E2. apply span_inv in E2 as (-> & Hj & _). intros H.
  assert (H' : with_exponent i (Some j) s2 = (n, r) /\ (i <> [] \/ j <> [])) by (destruct i, j; [discriminate| | |]; (split; [congruence|]); first [left; discriminate|right; discriminate]).
  destruct H' as (H' & Hne). apply with_exponent_inv in H' as (<- & Hf & -> & Hx). split.
  - apply good_number_eq. split; [exact Hi|]. split; [intros f Ef; rewrite Hf in Ef; injection Ef as <-; exact Hj|]. split; [destruct Hne as [|Hne]; [left; assumption|right; exists j; auto]|exact Hx].
  - exists w. split; [exact Hw|]. rewrite number_chars_eq, Hf. rewrite <- !app_assoc. cbn [app]. rewrite <- E. exact Et.
Qed.
Lemma scan_number_ok n w t : good_number n -> white w -> ends_number t -> scan_number (w ++ number_chars n ++ t) = Some (n, t).
Proof.
  intros Hg Hw Ht. apply good_number_eq in Hg as (Hi & Hf & Hne & Hx). unfold scan_number. rewrite (skip_white _ _ Hw), number_chars_eq.
  pose proof (with_exponent_ok n t Hx Ht) as HE.
  assert (Hstop : stops is_digit (exponent_part n ++ t)).
  { unfold exponent_part. destruct (n_exp n) as [[[e s] ds]|]; [|destruct t as [|c t]; [exact Logic.I|apply Ht]]. destruct (Hx _ eq_refl) as ([-> | ->] & _); reflexivity. }
  set (tail := match n_frac n with Some f => 46 :: f | None => [] end ++ exponent_part n).
  assert (Hskip : skip ((n_int n ++ tail) ++ t) = n_int n ++ (tail ++ t)).
  { rewrite <- app_assoc. destruct (n_int n) as [|d i] eqn:Ei.
    - destruct Hne as [|(f & Ef & _)]; [congruence|]. subst tail. rewrite Ef. cbn [app]. apply skip_cons. reflexivity.
    - cbn [app]. apply skip_cons. apply digit_not_ws, Hi. left. reflexivity. }
  rewrite Hskip. assert (Htail : stops is_digit (tail ++ t)) by (subst tail; destruct (n_frac n); [reflexivity|exact Hstop]).
  rewrite (span_app is_digit _ _ Hi Htail). subst tail. destruct (n_frac n) as [f|] eqn:Ef.
  - cbn [app]. cbn [Nat.eqb]. rewrite <- app_assoc, (span_app is_digit f _ (Hf f eq_refl) Hstop).
    rewrite HE. destruct (n_int n) as [|d i]; [|destruct f; reflexivity]. destruct f; [|reflexivity]. destruct Hne as [|(f & Ef' & Hfne)]; congruence.
  - cbn [app]. rewrite HE. destruct Hne as [Hne|(f & Ef' & _)]; [|congruence].
    assert (G : match n_int n with [] => None | _ => Some (n, t) end = Some (n, t)) by (destruct (n_int n); [congruence|reflexivity]). rewrite G.
    destruct (exponent_part n ++ t) as [|c s] eqn:Es; [reflexivity|]. destruct (Nat.eqb_spec c 46) as [->|]; [|reflexivity]. exfalso.
    unfold exponent_part in Es. destruct (n_exp n) as [[[e s'] ds]|]; cbn [app exponent_chars] in Es.
    + injection Es as -> _. destruct (Hx _ eq_refl) as ([? | ?] & _); discriminate.
    + subst t. destruct Ht as (_ & Ht & _). congruence.
Qed.
Lemma number_inv t n r : scan_number t = Some (n, r) -> good_number n /\ forall ks, spelled ks r -> spelled (Num n :: ks) t.
Proof.
  intros H. apply scan_number_inv in H as (Hg & w & Hw & ->). split; [exact Hg|]. intros ks Hk. apply (spelled_token R w (Num n)); [exact Hw|discriminate|exact Hk].
Qed.
Lemma ws_ends_number c t : is_ws c = true -> ends_number (c :: t).
Proof. intros H. split; [apply ws_not_digit, H|]. unfold is_ws in H. by_bool; lia. Qed.
Lemma number_ok n ks c t : good_number n -> starts ks c -> ends_number [c] -> spelled (Num n :: ks) t -> exists r, scan_number t = Some (n, r) /\ spelled ks r.
Proof.
  intros Hg Hs Hc H. inversion H as [|w k0 ks0 t0 Hw Hn Hk]; subst. exists t0. split; [|exact Hk]. apply scan_number_ok; auto.
  destruct (spelled_head ks c t0 Hs Hk) as (c' & t' & -> & [Hc'| ->]); [apply ws_ends_number, Hc'|exact Hc].
Qed.

(** ** lengths *)
Lemma spelled_length ks1 ks2 t : (forall k, In k ks1 -> chars k <> []) -> spelled (ks1 ++ ks2) t -> length ks1 <= length t.
Proof.
  revert t. induction ks1 as [|k ks1 IH]; intros t Hk H; [cbn; lia|]. cbn [app] in H. inversion H as [|w k0 ks0 t0 Hw Hn Hs]; subst.
  apply IH in Hs; [|intros k0 Hk0; apply Hk; right; exact Hk0]. assert (Hne : chars k <> []) by (apply Hk; left; reflexivity). rewrite !app_length. destruct (chars k); [congruence|]. cbn [length]. lia.
Qed.
Lemma good_name_chars s : good_name s -> chars (Name s) <> [].
Proof. intros (H & _). exact H. Qed.
Lemma good_number_chars n : good_number n -> chars (Num n) <> [].
Proof.
  intros (_ & _ & Hne & _). cbn [chars]. unfold number_chars. destruct Hne as [H|(f & Ef & _)]; [destruct (n_int n); [congruence|discriminate]|].
  rewrite Ef. destruct (n_int n); discriminate.
Qed.

(** ** lists *)
Section Lists.
  Context {A : Type} (p : text -> option (A * text)) (tok : A -> token) (ok : A -> Prop) (follow : nat -> Prop).
  Context (Hinv : forall t a r, p t = Some (a, r) -> ok a /\ forall ks, spelled ks r -> spelled (tok a :: ks) t).
  Context (Hok : forall a ks c t, ok a -> starts ks c -> (c = 44 \/ follow c) -> spelled (tok a :: ks) t -> exists r, p t = Some (a, r) /\ spelled ks r).
  Context (Hchars : forall a, ok a -> chars (tok a) <> []).
  Lemma commas_cons k ks : ks <> [] -> commas (k :: ks) = k :: K "," :: commas ks.
  Proof. destruct ks; [congruence|reflexivity]. Qed.
  Lemma comma_list_inv fuel : forall t l r, comma_list p fuel t = Some (l, r) -> l <> [] /\ (forall a, In a l -> ok a) /\ forall ks, spelled ks r -> spelled (commas (map tok l) ++ ks) t.
  Proof.
    induction fuel as [|fuel IH]; intros t l r H; [discriminate|]. cbn [comma_list] in H. destruct (p t) as [[x t1]|] eqn:Ep; [|discriminate]. cbn [then_] in H. apply Hinv in Ep as (Hx & Hs).
    destruct (lit (str ",") t1) as [t2|] eqn:El.
    - destruct (comma_list p fuel t2) as [[xs t3]|] eqn:E; [|discriminate]. cbn [then_] in H. injection H as <- <-. apply IH in E as (Hne & Hall & Hk). split; [discriminate|]. split; [intros a [<- |Ha]; auto|].
      intros ks Hks. cbn [map]. rewrite commas_cons by (destruct xs; [congruence|discriminate]). cbn [app]. apply Hs. apply (lit_inv _ _ _ _ El). apply Hk, Hks.
    - injection H as <- <-. split; [discriminate|]. split; [intros a [<- |[]]; exact Hx|]. intros ks Hks. apply Hs, Hks.
  Qed.
  Lemma comma_list_ok c : follow c -> c <> 44 -> is_ws c = false -> forall l fuel ks t, starts ks c -> l <> [] -> (forall a, In a l -> ok a) -> length l <= fuel ->
    spelled (commas (map tok l) ++ ks) t -> exists r, comma_list p fuel t = Some (l, r) /\ spelled ks r.
  Proof.
    intros Hf Hc Hw. induction l as [|x l IH]; intros fuel ks t Hs Hne Hall Hfuel H; [congruence|]. destruct fuel as [|fuel]; [cbn in Hfuel; lia|]. cbn [comma_list].
    destruct l as [|y l].
    - cbn [map commas app] in H. destruct (Hok x ks c t (Hall x (or_introl eq_refl)) Hs (or_intror Hf) H) as (r & -> & Hr). cbn [then_]. exists r. split; [|exact Hr].
      assert (El : lit (str ",") r = None) by (apply (lit_none 44 [] ks c); auto). rewrite El. reflexivity.
    - cbn [map] in H. rewrite commas_cons in H by discriminate. cbn [app] in H.
      destruct (Hok x _ 44 t (Hall x (or_introl eq_refl)) (ex_intro _ (K ",") (ex_intro _ _ (ex_intro _ [] (conj eq_refl eq_refl)))) (or_introl eq_refl) H) as (r & -> & Hr). cbn [then_].
      apply (lit_key 44 []) in Hr as (r' & El & Hr'); [|reflexivity]. assert (El' : lit (str ",") r = Some r') by exact El. rewrite El'. change (tok y :: map tok l) with (map tok (y :: l)) in Hr'.
      destruct (IH fuel ks r' Hs) as (r2 & -> & Hr2); [discriminate|intros a Ha; apply Hall; right; exact Ha|cbn in *; lia|exact Hr'|]. exists r2. split; [reflexivity|exact Hr2].
  Qed.
  Lemma commas_length ks : length ks <= length (commas ks).
  Proof. induction ks as [|k ks IH]; [cbn; lia|]. destruct ks as [|k' ks]; [cbn; lia|]. rewrite commas_cons by discriminate. cbn [length] in *. lia. Qed.
  Lemma commas_chars l k : (forall a, In a l -> ok a) -> In k (commas (map tok l)) -> chars k <> [].
  Proof.
    induction l as [|x l IH]; intros Hall Hk; [destruct Hk|]. destruct l as [|y l].
    - destruct Hk as [<- |[]]. apply Hchars, Hall. left. reflexivity.
    - cbn [map] in Hk. rewrite commas_cons in Hk by discriminate. destruct Hk as [<- |[<- |Hk]]; [apply Hchars, Hall; left; reflexivity|discriminate|]. apply IH; [intros a Ha; apply Hall; right; exact Ha|exact Hk].
  Qed.
  Lemma list_of_inv t l r : list_of p t = Some (l, r) -> l <> [] /\ (forall a, In a l -> ok a) /\ forall ks, spelled ks r -> spelled (commas (map tok l) ++ ks) t.
  Proof. apply comma_list_inv. Qed.
  Lemma list_of_ok c l ks t : follow c -> c <> 44 -> is_ws c = false -> starts ks c -> l <> [] -> (forall a, In a l -> ok a) ->
    spelled (commas (map tok l) ++ ks) t -> exists r, list_of p t = Some (l, r) /\ spelled ks r.
  Proof.
    intros Hf Hc Hw Hs Hne Hall H. apply (comma_list_ok c Hf Hc Hw); auto.
    pose proof (spelled_length _ _ _ (fun k Hk => commas_chars l k Hall Hk) H) as HL. pose proof (commas_length (map tok l)) as HL'. rewrite map_length in HL'. lia.
  Qed.
End Lists.
Lemma starts_K c s ks : starts (Key (c :: s) :: ks) c.
Proof. exists (Key (c :: s)), ks, s. split; reflexivity. Qed.

(** names and rows *)
Lemma names_inv t l r : list_of identifier t = Some (l, r) -> good_names l /\ forall ks, spelled ks r -> spelled (commas (map Name l) ++ ks) t.
Proof. intros H. apply (list_of_inv identifier Name good_name) in H as (A & B & C); [|exact identifier_inv]. split; [split; assumption|exact C]. Qed.
Lemma names_ok c s l ks t : c <> 44 -> is_ws c = false -> good_names l -> spelled (commas (map Name l) ++ Key (c :: s) :: ks) t ->
  exists r, list_of identifier t = Some (l, r) /\ spelled (Key (c :: s) :: ks) r.
Proof.
  intros Hc Hw (A & B) H. apply (list_of_ok identifier Name good_name (fun _ => True)) with (c := c); auto.
  - intros a ks' c' t' Ha _ _ H'. apply identifier_ok; assumption.
  - exact good_name_chars.
  - apply starts_K.
Qed.
Lemma row_inv t l r : list_of scan_number t = Some (l, r) -> good_row l /\ forall ks, spelled ks r -> spelled (commas (map Num l) ++ ks) t.
Proof. intros H. apply (list_of_inv scan_number Num good_number) in H as (A & B & C); [|exact number_inv]. split; [split; assumption|exact C]. Qed.
Lemma row_ok l ks t : good_row l -> spelled (commas (map Num l) ++ K ";" :: ks) t ->
  exists r, list_of scan_number t = Some (l, r) /\ spelled (K ";" :: ks) r.
Proof.
  intros (A & B) H. apply (list_of_ok scan_number Num good_number (fun c => c = 59)) with (c := 59); auto.
  - intros a ks' c' t' Ha Hs Hc H'. apply number_ok with (c := c'); auto. destruct Hc as [-> | ->]; repeat split; discriminate.
  - exact good_number_chars.
  - discriminate.
  - apply (starts_K 59 []).
Qed.


(** a keyword or punctuation mark at the head of the tokens *)
Lemma lit_K s c s' ks t : str s = c :: s' -> is_ws c = false -> spelled (K s :: ks) t -> exists r, lit (str s) t = Some r /\ spelled ks r.
Proof. unfold K. intros ->. apply lit_key. Qed.
Lemma no_lit_K s c s' s2 c2 s2' ks t : str s = c :: s' -> str s2 = c2 :: s2' -> is_ws c2 = false -> c <> c2 -> spelled (K s2 :: ks) t -> lit (str s) t = None.
Proof. unfold K. intros -> ->  Hw Hc. apply lit_none with (c' := c2); auto. apply starts_K. Qed.
Ltac take H r := let E := fresh "E" in eapply lit_K in H as (r & E & H); [rewrite E; cbn [then_]; clear E|reflexivity|reflexivity].

(** properties *)
Definition property_all (ps : list (text * text)) : Prop := forall p, In p ps -> good_property p.
Lemma property_list_inv fuel : forall t ps r, property_list fuel t = Some (ps, r) -> property_all ps /\ forall ks, spelled ks r -> spelled (flat_map property_tokens ps ++ ks) t.
Proof.
  induction fuel as [|fuel IH]; intros t ps r H; cbn [property_list] in H; destruct (lit (str "property") t) as [t1|] eqn:E1; try discriminate;
    try (injection H as <- <-; split; [intros p []|intros ks Hk; exact Hk]).
  destruct (identifier t1) as [[k t2]|] eqn:E2; [|discriminate]. cbn [then_] in H. destruct (property_value t2) as [[v t3]|] eqn:E3; [|discriminate]. cbn [then_] in H.
  destruct (lit (str ";") t3) as [t4|] eqn:E4; [|discriminate]. cbn [then_] in H. destruct (property_list fuel t4) as [[ps' t5]|] eqn:E5; [|discriminate]. cbn [then_] in H. injection H as <- <-.
  apply identifier_inv in E2 as (G2 & S2). apply property_value_inv in E3 as (G3 & S3). apply IH in E5 as (G5 & S5).
  split; [intros p [<- |Hp]; [split; assumption|apply G5, Hp]|]. intros ks Hk. cbn [flat_map property_tokens fst snd app].
  apply (lit_inv _ _ _ _ E1), S2, S3, (lit_inv _ _ _ _ E4), S5, Hk.
Qed.
Lemma property_tokens_chars p k : good_property p -> In k (property_tokens p) -> chars k <> [].
Proof.
  intros ((H1 & _) & H2) [<- |[<- |[<- |[<- |[]]]]]; try discriminate; [exact H1|]. cbn [chars]. destruct H2 as [(H & _)|(q & _ & ->)]; [exact H|discriminate].
Qed.
Lemma flat_map_length {A B} (f : A -> list B) l : (forall x, In x l -> f x <> []) -> length l <= length (flat_map f l).
Proof.
  induction l as [|x l IH]; intros H; [cbn; lia|]. cbn [flat_map]. rewrite app_length. assert (f x <> []) by (apply H; left; reflexivity). destruct (f x); [congruence|]. cbn [length].
  assert (length l <= length (flat_map f l)) by (apply IH; intros y Hy; apply H; right; exact Hy). lia.
Qed.
Lemma property_list_ok ps : property_all ps -> forall fuel ks t, length ps <= fuel -> spelled (flat_map property_tokens ps ++ K "}" :: ks) t ->
  exists r, property_list fuel t = Some (ps, r) /\ spelled (K "}" :: ks) r.
Proof.
  induction ps as [|[k v] ps IH]; intros Hall fuel ks t Hfuel H.
  - exists t. split; [|exact H]. cbn [flat_map app] in H. assert (E : lit (str "property") t = None) by (eapply no_lit_K; [| | | |exact H]; [reflexivity|reflexivity|reflexivity|discriminate]).
    destruct fuel; cbn [property_list]; rewrite E; reflexivity.
  - destruct fuel as [|fuel]; [cbn in Hfuel; lia|]. cbn [flat_map property_tokens fst snd app] in H. cbn [property_list]. destruct (Hall _ (or_introl eq_refl)) as (G1 & G2). cbn [fst snd] in G1, G2. take H r1.
    apply identifier_ok in H as (r2 & -> & H); [|exact G1]. cbn [then_]. apply property_value_ok with (c := 59) in H as (r3 & -> & H); [|exact G2|apply (starts_K 59 [])|reflexivity]. cbn [then_]. take H r4.
    destruct (IH (fun p Hp => Hall p (or_intror Hp)) fuel ks r4) as (r5 & -> & H5); [cbn in Hfuel; lia|exact H|]. cbn [then_]. exists r5. split; [reflexivity|exact H5].
Qed.
Lemma rest_of_block_inv t ps r : rest_of_block t = Some (ps, r) -> property_all ps /\ forall ks, spelled ks r -> spelled (flat_map property_tokens ps ++ K "}" :: ks) t.
Proof.
  unfold rest_of_block. destruct (property_list (length t) t) as [[ps' t1]|] eqn:E; [|discriminate]. cbn [then_]. destruct (lit (str "}") t1) as [t2|] eqn:E2; [|discriminate]. cbn [then_]. intros H. injection H as <- <-.
  apply property_list_inv in E as (G & S1). split; [exact G|]. intros ks Hk. apply S1, (lit_inv _ _ _ _ E2), Hk.
Qed.
Lemma rest_of_block_ok ps ks t : property_all ps -> spelled (flat_map property_tokens ps ++ K "}" :: ks) t -> exists r, rest_of_block t = Some (ps, r) /\ spelled ks r.
Proof.
  intros G H. unfold rest_of_block. assert (Hlen : length ps <= length t).
  { assert (HL : length (flat_map property_tokens ps) <= length t).
    { apply (spelled_length (flat_map property_tokens ps)) in H; [exact H|]. intros k Hk. apply in_flat_map in Hk as (p & Hp & Hk). apply (property_tokens_chars p k (G p Hp) Hk). }
    pose proof (flat_map_length property_tokens ps (fun x _ => ltac:(discriminate))). lia. }
  destruct (property_list_ok ps G (length t) ks t Hlen H) as (r & -> & H'). cbn [then_]. take H' r'. exists r'. split; [reflexivity|exact H'].
Qed.

Lemma names_K s c s' l ks t : str s = c :: s' -> c <> 44 -> is_ws c = false -> good_names l -> spelled (commas (map Name l) ++ K s :: ks) t ->
  exists r, list_of identifier t = Some (l, r) /\ spelled (K s :: ks) r.
Proof. unfold K. intros ->. apply names_ok. Qed.

(** lines *)
Definition good_line (l : list text * list number) : Prop := good_names (fst l) /\ good_row (snd l).
Definition line_rest (l : list text * list number) : list token := commas (map Name (fst l)) ++ K ")" :: commas (map Num (snd l)) ++ [K ";"].
Lemma cond_line_inv t l r : cond_line t = Some (l, r) -> good_line l /\ forall ks, spelled ks r -> spelled (line_rest l ++ ks) t.
Proof.
  unfold cond_line. destruct (list_of identifier t) as [[vs t1]|] eqn:E1; [|discriminate]. cbn [then_]. destruct (lit (str ")") t1) as [t2|] eqn:E2; [|discriminate]. cbn [then_].
  destruct (list_of scan_number t2) as [[ns t3]|] eqn:E3; [|discriminate]. cbn [then_]. destruct (lit (str ";") t3) as [t4|] eqn:E4; [|discriminate]. cbn [then_]. intros H. injection H as <- <-.
  apply names_inv in E1 as (G1 & S1). apply row_inv in E3 as (G3 & S3). split; [split; assumption|]. intros ks Hk. unfold line_rest. cbn [fst snd]. rewrite <- app_assoc. cbn [app]. rewrite <- app_assoc. cbn [app].
  apply S1, (lit_inv _ _ _ _ E2), S3, (lit_inv _ _ _ _ E4), Hk.
Qed.
Lemma cond_line_ok l ks t : good_line l -> spelled (line_rest l ++ ks) t -> exists r, cond_line t = Some (l, r) /\ spelled ks r.
Proof.
  intros (G1 & G2) H. unfold line_rest in H. rewrite <- app_assoc in H. cbn [app] in H. rewrite <- app_assoc in H. cbn [app] in H. unfold cond_line.
  eapply names_K in H as (r1 & -> & H); [|reflexivity|discriminate|reflexivity|exact G1]. cbn [then_]. take H r2. apply row_ok in H as (r3 & -> & H); [|exact G2]. cbn [then_]. take H r4. destruct l. exists r4. split; [reflexivity|exact H].
Qed.
Lemma line_tokens_eq l : line_tokens l = K "(" :: line_rest l.
Proof. reflexivity. Qed.
Lemma cond_lines_inv fuel : forall t ls r, cond_lines fuel t = Some (ls, r) -> (forall l, In l ls -> good_line l) /\ forall ks, spelled ks r -> spelled (flat_map line_tokens ls ++ ks) t.
Proof.
  induction fuel as [|fuel IH]; intros t ls r H; cbn [cond_lines] in H; destruct (lit (str "(") t) as [t1|] eqn:E1; try discriminate;
    try (injection H as <- <-; split; [intros p []|intros ks Hk; exact Hk]).
  destruct (cond_line t1) as [[l t2]|] eqn:E2; [|discriminate]. cbn [then_] in H. destruct (cond_lines fuel t2) as [[ls' t3]|] eqn:E3; [|discriminate]. cbn [then_] in H. injection H as <- <-.
  apply cond_line_inv in E2 as (G2 & S2). apply IH in E3 as (G3 & S3). split; [intros l' [<- |Hl]; auto|]. intros ks Hk. cbn [flat_map]. rewrite line_tokens_eq. cbn [app]. rewrite <- app_assoc.
  apply (lit_inv _ _ _ _ E1), S2, S3, Hk.
Qed.
(** the tokens that can follow: "property" or "}" *)
Definition after_rows (ks : list token) : Prop := exists ks', ks = K "property" :: ks' \/ ks = K "}" :: ks'.
Lemma after_rows_props ps ks : after_rows (flat_map property_tokens ps ++ K "}" :: ks).
Proof. destruct ps as [|[k v] ps]; [exists ks; right; reflexivity|]. eexists. left. reflexivity. Qed.
Lemma cond_lines_ok ls : (forall l, In l ls -> good_line l) -> forall fuel ks t, length ls <= fuel -> after_rows ks -> spelled (flat_map line_tokens ls ++ ks) t ->
  exists r, cond_lines fuel t = Some (ls, r) /\ spelled ks r.
Proof.
  induction ls as [|l ls IH]; intros Hall fuel ks t Hfuel Ha H.
  - exists t. split; [|exact H]. cbn [flat_map app] in H.
    assert (E : lit (str "(") t = None) by (destruct Ha as (ks' & [-> | ->]); (eapply no_lit_K; [| | | |exact H]; [reflexivity|reflexivity|reflexivity|discriminate])).
    destruct fuel; cbn [cond_lines]; rewrite E; reflexivity.
  - destruct fuel as [|fuel]; [cbn in Hfuel; lia|]. cbn [flat_map] in H. rewrite line_tokens_eq in H. cbn [app] in H. rewrite <- app_assoc in H. cbn [cond_lines]. take H r1.
    apply cond_line_ok in H as (r2 & -> & H); [|apply Hall; left; reflexivity]. cbn [then_].
    destruct (IH (fun l' Hl => Hall l' (or_intror Hl)) fuel ks r2) as (r5 & -> & H5); [cbn in Hfuel; lia|exact Ha|exact H|]. cbn [then_]. exists r5. split; [reflexivity|exact H5].
Qed.
Lemma probability_rows_inv t x r : probability_rows t = Some (x, r) -> good_rows x /\ forall ks, spelled ks r -> spelled (rows_tokens x ++ ks) t.
Proof.
  unfold probability_rows. destruct (lit (str "table") t) as [t1|] eqn:E1.
  - destruct (list_of scan_number t1) as [[ns t2]|] eqn:E2; [|discriminate]. cbn [then_]. destruct (lit (str ";") t2) as [t3|] eqn:E3; [|discriminate]. cbn [then_]. intros H. injection H as <- <-.
    apply row_inv in E2 as (G2 & S2). split; [exact G2|]. intros ks Hk. cbn [rows_tokens app]. rewrite <- app_assoc. cbn [app]. apply (lit_inv _ _ _ _ E1), S2, (lit_inv _ _ _ _ E3), Hk.
  - destruct (cond_lines (length t) t) as [[ls t1]|] eqn:E2; [|discriminate]. cbn [then_]. apply cond_lines_inv in E2 as (G2 & S2). intros H.
    assert (x = Lines ls /\ t1 = r /\ ls <> []) as (-> & -> & Hne) by (destruct ls; [discriminate|]; injection H as <- <-; repeat split; discriminate).
    split; [split; assumption|exact S2].
Qed.
Lemma line_tokens_chars l k : good_line l -> In k (line_tokens l) -> chars k <> [].
Proof.
  intros ((G1 & G1') & (G2 & G2')) H. rewrite line_tokens_eq in H. destruct H as [<- |H]; [discriminate|]. unfold line_rest in H. apply in_app_or in H as [H|[<- |H]]; [|discriminate|].
  - apply (commas_chars Name good_name) in H; auto. exact good_name_chars.
  - apply in_app_or in H as [H|[<- |[]]]; [|discriminate]. apply (commas_chars Num good_number) in H; auto. exact good_number_chars.
Qed.
Lemma probability_rows_ok x ks t : good_rows x -> after_rows ks -> spelled (rows_tokens x ++ ks) t -> exists r, probability_rows t = Some (x, r) /\ spelled ks r.
Proof.
  intros G Ha H. unfold probability_rows. destruct x as [row|ls]; cbn [rows_tokens] in H.
  - cbn [app] in H. rewrite <- app_assoc in H. cbn [app] in H. take H r1. apply row_ok in H as (r2 & -> & H); [|exact G]. cbn [then_]. take H r3. exists r3. split; [reflexivity|exact H].
  - destruct G as (Hne & G). assert (E : lit (str "table") t = None).
    { destruct ls as [|l ls]; [congruence|]. cbn [flat_map] in H. rewrite line_tokens_eq in H. cbn [app] in H. eapply no_lit_K; [| | | |exact H]; [reflexivity|reflexivity|reflexivity|discriminate]. }
    rewrite E. assert (Hlen : length ls <= length t).
    { assert (HL : length (flat_map line_tokens ls) <= length t).
      { apply (spelled_length (flat_map line_tokens ls)) in H; [exact H|]. intros k Hk. apply in_flat_map in Hk as (l & Hl & Hk). apply (line_tokens_chars l k (G l Hl) Hk). }
      pose proof (flat_map_length line_tokens ls (fun x _ => ltac:(discriminate))). lia. }
    destruct (cond_lines_ok ls G (length t) ks t Hlen Ha H) as (r & -> & Hr). cbn [then_]. exists r. split; [|exact Hr]. destruct ls; [congruence|reflexivity].
Qed.

(** blocks *)
Ltac step H := match type of H with
  | then_ ?o _ = Some _ => let E := fresh "E" in destruct o as [[? ?]|] eqn:E; [|discriminate]; cbn [then_] in H
  end.
Ltac step1 H := match type of H with
  | then_ ?o _ = Some _ => let E := fresh "E" in destruct o as [?|] eqn:E; [|discriminate]; cbn [then_] in H
  end.
Lemma one_block_inv t b r : one_block t = Some (b, r) -> good_block b /\ forall ks, spelled ks r -> spelled (block_tokens b ++ ks) t.
Proof.
  unfold one_block. destruct (lit (str "network") t) as [t1|] eqn:E1; [|destruct (lit (str "variable") t) as [t1|] eqn:E2].
  - unfold network_block. intros H. step H. step1 H. step H. injection H as <- <-. apply identifier_inv in E as (G1 & S1). apply rest_of_block_inv in E2 as (G2 & S2).
    split; [split; assumption|]. intros ks Hk. cbn [block_tokens app]. rewrite <- app_assoc. cbn [app]. apply (lit_inv _ _ _ _ E1), S1, (lit_inv _ _ _ _ E0), S2, Hk.
  - unfold variable_block. intros H. step H. do 4 step1 H. step H. do 2 step1 H. step H. do 2 step1 H. step H. injection H as <- <-.
    apply identifier_inv in E as (G1 & S1). apply count_inv in E6 as (G2 & S2). apply names_inv in E9 as (G3 & S3). apply rest_of_block_inv in E12 as (G4 & S4).
    split; [exact (conj G1 (conj G2 (conj G3 G4)))|]. intros ks Hk. cbn [block_tokens]. repeat (cbn [app]; rewrite <- ?app_assoc). cbn [app].
    apply (lit_inv _ _ _ _ E2), S1, (lit_inv _ _ _ _ E0), (lit_inv _ _ _ _ E3), (lit_inv _ _ _ _ E4), (lit_inv _ _ _ _ E5), S2, (lit_inv _ _ _ _ E7), (lit_inv _ _ _ _ E8), S3, (lit_inv _ _ _ _ E10), (lit_inv _ _ _ _ E11), S4, Hk.
  - intros H. step1 H. unfold probability_block in H. step1 H. step H. step H. do 2 step1 H. step H. step H. injection H as <- <-.
    apply identifier_inv in E3 as (G1 & S1). apply probability_rows_inv in E7 as (G3 & S3). apply rest_of_block_inv in E8 as (G4 & S4).
    match type of E4 with match lit _ ?t4 with _ => _ end = Some (?g, ?t3) => assert (Hg : (forall s, In s g -> good_name s) /\ forall ks, spelled ks t3 -> spelled (match g with [] => [] | _ => K "|" :: commas (map Name g) end ++ ks) t4) end.
    { match type of E4 with context [lit (str "|") ?tt] => destruct (lit (str "|") tt) as [u|] eqn:E9 end.
      - apply names_inv in E4 as ((Gne & G2) & S2). split; [exact G2|]. intros ks Hk. apply S2 in Hk. apply (lit_inv _ _ _ _ E9) in Hk. destruct l; [congruence|exact Hk].
      - injection E4 as <- <-. split; [intros s []|]. intros ks Hk. exact Hk. }
    destruct Hg as (G2 & S2). split; [exact (conj G1 (conj G2 (conj G3 G4)))|]. intros ks Hk. cbn [block_tokens]. repeat (cbn [app]; rewrite <- ?app_assoc). cbn [app].
    apply (lit_inv _ _ _ _ E), (lit_inv _ _ _ _ E0), S1, S2, (lit_inv _ _ _ _ E5), (lit_inv _ _ _ _ E6), S3, S4, Hk.
Qed.

Lemma one_block_ok b ks t : good_block b -> spelled (block_tokens b ++ ks) t -> exists r, one_block t = Some (b, r) /\ spelled ks r.
Proof.
  destruct b as [name ps|name count values ps|name given x ps]; intros G H; cbn [block_tokens] in H; unfold one_block.
  - destruct G as (G1 & G2). cbn [app] in H. rewrite <- app_assoc in H. cbn [app] in H. take H r1. unfold network_block. apply identifier_ok in H as (r2 & -> & H); [|exact G1]. cbn [then_]. take H r3.
    apply rest_of_block_ok in H as (r4 & -> & H); [|exact G2]. cbn [then_]. exists r4. split; [reflexivity|exact H].
  - destruct G as (G1 & G2 & G3 & G4). repeat (cbn [app] in H; rewrite <- ?app_assoc in H). cbn [app] in H.
    assert (En : lit (str "network") t = None) by (eapply no_lit_K; [| | | |exact H]; [reflexivity|reflexivity|reflexivity|discriminate]). rewrite En. take H r1. unfold variable_block.
    apply identifier_ok in H as (r2 & -> & H); [|exact G1]. cbn [then_]. take H r3. take H r4. take H r5. take H r6. apply count_ok with (c := 93) in H as (r7 & -> & H); [|exact G2|apply (starts_K 93 [])|reflexivity].
    cbn [then_]. take H r8. take H r9. eapply names_K in H as (r10 & -> & H); [|reflexivity|discriminate|reflexivity|exact G3]. cbn [then_]. take H r11. take H r12.
    apply rest_of_block_ok in H as (r13 & -> & H); [|exact G4]. cbn [then_]. exists r13. split; [reflexivity|exact H].
  - destruct G as (G1 & G2 & G3 & G4). repeat (cbn [app] in H; rewrite <- ?app_assoc in H). cbn [app] in H.
    assert (En : lit (str "network") t = None) by (eapply no_lit_K; [| | | |exact H]; [reflexivity|reflexivity|reflexivity|discriminate]). rewrite En.
    assert (Ev : lit (str "variable") t = None) by (eapply no_lit_K; [| | | |exact H]; [reflexivity|reflexivity|reflexivity|discriminate]). rewrite Ev.
    take H r1. unfold probability_block. take H r2. apply identifier_ok in H as (r3 & -> & H); [|exact G1]. cbn [then_].
    match type of H with spelled (_ ++ ?ks') r3 =>
      assert (Hg : exists r, match lit (str "|") r3 with Some t3 => list_of identifier t3 | None => Some ([], r3) end = Some (given, r) /\ spelled ks' r) end.
    { destruct given as [|g given].
      - cbn [app] in H. assert (Eb : lit (str "|") r3 = None) by (eapply no_lit_K; [| | | |exact H]; [reflexivity|reflexivity|reflexivity|discriminate]). rewrite Eb. exists r3. split; [reflexivity|exact H].
      - cbn [app] in H. take H r4. eapply names_K in H as (r5 & -> & H); [|reflexivity|discriminate|reflexivity|split; [discriminate|exact G2]]. exists r5. split; [reflexivity|exact H]. }
    clear H. destruct Hg as (r4 & -> & H). cbn [then_]. take H r5. take H r6. apply probability_rows_ok in H as (r7 & -> & H); [|exact G3|apply after_rows_props]. cbn [then_].
    apply rest_of_block_ok in H as (r8 & -> & H); [|exact G4]. cbn [then_]. exists r8. split; [reflexivity|exact H].
Qed.


Lemma block_starts b : exists ks s c s', block_tokens b = K s :: ks /\ str s = c :: s' /\ is_ws c = false.
Proof. destruct b; cbn [block_tokens app]; eexists; eexists; eexists; eexists; repeat split. Qed.
Lemma spelled_nonempty_head ks1 k ks2 t : chars k <> [] -> spelled (k :: ks1 ++ ks2) t -> exists t', spelled (ks1 ++ ks2) t' /\ length t' < length t.
Proof.
  intros Hk H. inversion H as [|w k0 ks0 t0 Hw Hn Hs]; subst. exists t0. split; [exact Hs|]. rewrite !app_length. destruct (chars k); [congruence|]. cbn. lia.
Qed.
Lemma spelled_drop ks1 ks2 t : spelled (ks1 ++ ks2) t -> exists t', spelled ks2 t' /\ length t' <= length t.
Proof.
  revert t. induction ks1 as [|k ks1 IH]; intros t H; [exists t; split; [exact H|lia]|]. cbn [app] in H. inversion H as [|w k0 ks0 t0 Hw Hn Hs]; subst.
  apply IH in Hs as (t' & H' & HL). exists t'. split; [exact H'|]. rewrite !app_length. lia.
Qed.
Lemma blocks_length bs : forall t, spelled (flat_map block_tokens bs) t -> length bs <= length t.
Proof.
  induction bs as [|b bs IH]; intros t H; [cbn; lia|]. cbn [flat_map] in H. destruct (block_starts b) as (ks & s & c & s' & Eb & Es & Ec). rewrite Eb in H. cbn [app] in H.
  apply spelled_nonempty_head in H as (t1 & H1 & L1); [|cbn [chars K]; rewrite Es; discriminate]. apply spelled_drop in H1 as (t2 & H2 & L2). apply IH in H2. cbn. lia.
Qed.
Lemma block_tokens_chars b k : good_block b -> In k (block_tokens b) -> chars k <> [].
Proof.
  assert (Hps : forall ps k, property_all ps -> In k (flat_map property_tokens ps) -> chars k <> []).
  { intros ps k' G H. apply in_flat_map in H as (p & Hp & Hk). apply (property_tokens_chars p k' (G p Hp) Hk). }
  assert (Hns : forall ns k, (forall s, In s ns -> good_name s) -> In k (commas (map Name ns)) -> chars k <> []).
  { intros ns k' G H. apply (commas_chars Name good_name good_name_chars) in H; [exact H|exact G]. }
  destruct b as [name ps|name count values ps|name given x ps]; intros G H; cbn [block_tokens] in H.
  - destruct G as ((G1 & _) & G2). apply in_app_or in H as [[<- |[<- |[<- |[]]]]|H]; try discriminate; [exact G1|]. apply in_app_or in H as [H|[<- |[]]]; [|discriminate]. apply (Hps _ _ G2 H).
  - destruct G as ((G1 & _) & (G2 & _) & (_ & G3) & G4). apply in_app_or in H as [H|H].
    + destruct H as [<- |[<- |[<- |[<- |[<- |[<- |[<- |[<- |[<- |[]]]]]]]]]]; try discriminate; [exact G1|exact G2].
    + apply in_app_or in H as [H|H]; [apply (Hns _ _ G3 H)|]. apply in_app_or in H as [[<- |[<- |[]]]|H]; try discriminate. apply in_app_or in H as [H|[<- |[]]]; [|discriminate]. apply (Hps _ _ G4 H).
  - destruct G as ((G1 & _) & G2 & G3 & G4). apply in_app_or in H as [H|H]; [destruct H as [<- |[<- |[<- |[]]]]; try discriminate; exact G1|].
    apply in_app_or in H as [H|H].
    + destruct given as [|g given]; [destruct H|]. destruct H as [<- |H]; [discriminate|]. apply (Hns _ _ G2 H).
    + apply in_app_or in H as [[<- |[<- |[]]]|H]; try discriminate. apply in_app_or in H as [H|H].
      * destruct x as [row|ls]; cbn [rows_tokens] in H.
        -- destruct H as [<- |H]; [discriminate|]. apply in_app_or in H as [H|[<- |[]]]; [|discriminate]. apply (commas_chars Num good_number good_number_chars) in H; [exact H|apply G3].
        -- apply in_flat_map in H as (l & Hl & Hk). apply (line_tokens_chars l k); [apply G3, Hl|exact Hk].
      * apply in_app_or in H as [H|[<- |[]]]; [|discriminate]. apply (Hps _ _ G4 H).
Qed.
Lemma block_tokens_last b : exists pre, block_tokens b = pre ++ [K "}"].
Proof.
  destruct b as [name ps|name count values ps|name given x ps]; cbn [block_tokens].
  - rewrite app_assoc. eexists. reflexivity.
  - rewrite !app_assoc. eexists. reflexivity.
  - rewrite !app_assoc. eexists. reflexivity.
Qed.

(** the same tokens with another text behind them *)
Lemma spelled_cut ks1 ks2 t : spelled (ks1 ++ ks2) t <-> spelled_then (spelled_then R ks2) ks1 t.
Proof.
  revert t. induction ks1 as [|k ks1 IH]; intros t; cbn [app]; split; intros H.
  - apply spelled_end, H.
  - inversion H; assumption.
  - inversion H as [|w k0 ks0 t0 Hw Hn Hs]; subst. apply spelled_token; [exact Hw|exact Hn|apply IH, Hs].
  - inversion H as [|w k0 ks0 t0 Hw Hn Hs]; subst. apply spelled_token; [exact Hw|exact Hn|apply IH, Hs].
Qed.
Lemma spelled_append ks : forall t q, (forall k, In k ks -> chars k <> []) -> (forall s pre, ks <> pre ++ [Name s]) -> spelled ks t ->
  spelled_then (fun r => exists r0, R r0 /\ r = r0 ++ q) ks (t ++ q).
Proof.
  induction ks as [|k ks IH]; intros t q Hne Hl H; inversion H as [w Hw|w k0 ks0 t0 Hw Hn Hs]; subst.
  - apply spelled_end. exists t. split; [exact Hw|reflexivity].
  - rewrite <- !app_assoc. apply spelled_token; [exact Hw| |apply IH; [intros k0 Hk0; apply Hne; right; exact Hk0| |exact Hs]].
    + intros s Es. specialize (Hn s Es). destruct t0 as [|c t0]; [|exact Hn]. exfalso. destruct ks as [|k1 ks]; [apply (Hl s []); cbn; congruence|].
      inversion Hs as [|w0 k2 ks1 t1 Hw0 Hn1 Hs1 E1 E2]. apply app_eq_nil in E2 as (_ & E2). apply app_eq_nil in E2 as (E2 & _). apply (Hne k1); [right; left; reflexivity|exact E2].
    + intros s pre E. apply (Hl s (k :: pre)). cbn. rewrite E. reflexivity.
Qed.
End Tokens.
Lemma block_append R b t q : good_block b -> spelled_then R (block_tokens b) t -> exists r, R r /\ one_block (t ++ q) = Some (b, r ++ q).
Proof.
  intros G H. destruct (one_block_ok (R := fun r => exists r0, R r0 /\ r = r0 ++ q) b [] (t ++ q) G) as (r & E & Hr).
  - rewrite app_nil_r. apply spelled_append; [intros k Hk; apply (block_tokens_chars b k G Hk)| |exact H]. intros s pre E. destruct (block_tokens_last b) as (pre' & E'). rewrite E' in E. apply app_inj_tail in E as (_ & E). discriminate.
  - inversion Hr as [r1 (r0 & HR & E0)|]; subst. exists r0. split; [exact HR|exact E].
Qed.

(** texts *)
Lemma blocks_inv fuel : forall t bs, blocks fuel t = Some bs -> text_of bs t.
Proof.
  assert (Hend : forall t, skip t = [] -> text_of [] t) by (intros t H; split; [intros b []|apply spelled_end, skip_all, H]).
  induction fuel as [|fuel IH]; intros t bs H; cbn [blocks] in H; destruct (skip t) as [|c s] eqn:E; try discriminate; try (injection H as <-; apply Hend, E).
  destruct (one_block t) as [[b t1]|] eqn:Eb; [|discriminate]. cbn [then_] in H. destruct (blocks fuel t1) as [bs'|] eqn:Ebs; [|discriminate]. cbn [then_] in H. injection H as <-.
  apply (one_block_inv (R := white)) in Eb as (G1 & S1). apply IH in Ebs as (G2 & S2). split; [intros b' [<- |Hb]; auto|]. cbn [flat_map]. apply S1, S2.
Qed.
Lemma blocks_ok bs : forall fuel t, (forall b, In b bs -> good_block b) -> length bs <= fuel -> spelled (flat_map block_tokens bs) t -> blocks fuel t = Some bs.
Proof.
  induction bs as [|b bs IH]; intros fuel t G HL H.
  - cbn [flat_map] in H. inversion H as [w Hw|]; subst. apply skip_all in Hw. destruct fuel; cbn [blocks]; rewrite Hw; reflexivity.
  - destruct fuel as [|fuel]; [cbn in HL; lia|]. cbn [flat_map] in H. cbn [blocks].
    assert (Hsk : exists c s, skip t = c :: s).
    { destruct (block_starts b) as (ks & s & c & s' & Eb & Es & Ec). rewrite Eb in H. destruct (spelled_skip (R := white) ((K s :: ks) ++ flat_map block_tokens bs) c t) as (t' & Et); [|exact Ec|exact H|exists c, t'; exact Et].
      exists (K s), (ks ++ flat_map block_tokens bs), s'. split; [reflexivity|exact Es]. }
    destruct Hsk as (c & s & ->). destruct (one_block_ok b _ t (G b (or_introl eq_refl)) H) as (r & -> & Hr). cbn [then_]. rewrite (IH fuel r); [reflexivity|intros b' Hb; apply G; right; exact Hb|cbn in HL; lia|exact Hr].
Qed.
Lemma parse_text_iff t bs : parse_text t = Some bs <-> text_of bs t.
Proof.
  split; [apply blocks_inv|]. intros (G & H). apply blocks_ok; [exact G|apply (blocks_length _ _ H)|exact H].
Qed.

(** one text after another *)
Lemma blocks_enough fuel : forall t, length t <= fuel -> blocks fuel t = parse_text t.
Proof.
  intros t HL. destruct (parse_text t) as [bs|] eqn:E.
  - pose proof E as E'. apply parse_text_iff in E as (G & H). apply blocks_ok; [exact G| |exact H]. apply blocks_length in H. lia.
  - destruct (blocks fuel t) as [bs|] eqn:E2; [|reflexivity]. apply blocks_inv in E2. apply parse_text_iff in E2. congruence.
Qed.
Lemma parse_white w t : white w -> parse_text (w ++ t) = parse_text t.
Proof.
  intros Hw. assert (G : forall bs, parse_text (w ++ t) = Some bs <-> parse_text t = Some bs).
  { intros bs. rewrite !parse_text_iff. unfold text_of, spelled. split; intros (G & H); (split; [exact G|]).
    - inversion H as [r Hr E1 E2|w' k ks t' Hw' Hn Hs E1 E2].
      + apply spelled_end. intros c Hc. apply Hr. apply in_or_app. right. exact Hc.
      + destruct bs as [|b bs]; [discriminate|]. destruct (block_starts b) as (ks1 & s & c & s' & Eb & Es & Ec). cbn [flat_map] in E1. rewrite Eb in E1. injection E1 as -> E1.
        assert (Esk : skip t = str s ++ t'). { rewrite <- (skip_white w t Hw), <- E2, (skip_white w' _ Hw'). cbn [chars K]. rewrite Es. cbn [app]. apply skip_cons, Ec. }
        destruct (skip_split t) as (w2 & Hw2 & Et). rewrite Et, Esk. apply (spelled_token white w2 (K s)); assumption.
    - inversion H as [r Hr E1 E2|w' k ks t' Hw' Hn Hs E1 E2]; subst.
      + apply spelled_end. intros c Hc. apply in_app_or in Hc as [Hc|Hc]; auto.
      + rewrite app_assoc. apply spelled_token; [|exact Hn|exact Hs]. intros c Hc. apply in_app_or in Hc as [Hc|Hc]; auto. }
  destruct (parse_text (w ++ t)) as [bs|]; [symmetry; apply G; reflexivity|]. destruct (parse_text t) as [bs|]; [apply G; reflexivity|reflexivity].
Qed.
Lemma one_block_length t b r : one_block t = Some (b, r) -> length r < length t.
Proof.
  intros E. destruct (one_block_inv (R := eq r) t b r E) as (G & H). specialize (H [] (spelled_end _ r eq_refl)). rewrite app_nil_r in H.
  destruct (block_starts b) as (ks & s & c & s' & Eb & Es & Ec). rewrite Eb in H. rewrite <- (app_nil_r ks) in H. apply spelled_nonempty_head in H as (t1 & H1 & L1); [|cbn [chars K]; rewrite Es; discriminate].
  apply spelled_drop in H1 as (t2 & H2 & L2). inversion H2; subst. lia.
Qed.
Lemma parse_cons t b r : one_block t = Some (b, r) -> parse_text t = match parse_text r with Some bs => Some (b :: bs) | None => None end.
Proof.
  intros E. pose proof (one_block_length t b r E) as L. unfold parse_text at 1. destruct (length t) as [|n] eqn:En; [lia|]. cbn [blocks].
  assert (Hsk : skip t <> []).
  { intros Hs. destruct (one_block_inv (R := eq r) t b r E) as (G & H). specialize (H [] (spelled_end _ r eq_refl)). destruct (block_starts b) as (ks & s & c & s' & Eb & Es & Ec). rewrite Eb in H.
    destruct (spelled_skip _ c t (ex_intro _ (K s) (ex_intro _ (ks ++ []) (ex_intro _ s' (conj eq_refl Es)))) Ec H) as (t' & Et). congruence. }
  destruct (skip t) as [|c s]; [congruence|]. rewrite E. cbn [then_]. rewrite (blocks_enough n r) by lia. destruct (parse_text r); reflexivity.
Qed.
Lemma parse_append t1 bs1 t2 : parse_text t1 = Some bs1 -> parse_text (t1 ++ t2) = match parse_text t2 with Some bs2 => Some (bs1 ++ bs2) | None => None end.
Proof.
  intros H. apply parse_text_iff in H as (G & H). revert t1 G H. induction bs1 as [|b bs1 IH]; intros t1 G H.
  - inversion H as [w Hw|]; subst. rewrite (parse_white _ _ Hw). destruct (parse_text t2); reflexivity.
  - cbn [flat_map] in H. apply spelled_cut in H. destruct (block_append _ b t1 t2 (G b (or_introl eq_refl)) H) as (r & Hr & E). rewrite (parse_cons _ _ _ E), (IH r); [destruct (parse_text t2); reflexivity|intros b' Hb; apply G; right; exact Hb|exact Hr].
Qed.
