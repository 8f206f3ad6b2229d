(** C45 (selection of algorithm runs by an expression) and C46 (evaluation of a classifier). *)
From Coq Require Import String DecimalNat.
From Verif Require Import Base Matrix_Model Matrix_Spec Matrix_Proofs Matrix_Properties Text_Model Text_Proofs Sources_Model Select_Model.
Open Scope nat_scope.

(** ** C45 *)
(** the text consists of decimal digits and denotes k *)
Definition denotes (t : text) (k : nat) : Prop :=
  t <> [] /\ (forall c, In c t -> 48 <= c <= 57) /\ fold_left (fun v c => 10 * v + (c - 48)) t 0 = k.
(** the elements of l at the positions from a to b *)
Definition from_to {A} (a b : nat) (l : list A) : list A :=
  map snd (filter (fun ix => (a <=? fst ix) && (fst ix <=? b)) (combine (seq 0 (length l)) l)).

Lemma digit_ok c : 48 <= c <= 57 -> is_digit c = true.
Proof. intros H. unfold is_digit. rewrite (proj2 (Nat.leb_le 48 c)), (proj2 (Nat.leb_le c 57)) by lia. reflexivity. Qed.
Lemma digit_not_space c : 48 <= c <= 57 -> is_space c = false.
Proof.
  intros H. assert (E : In c [48; 49; 50; 51; 52; 53; 54; 55; 56; 57]).
  { replace c with (48 + (c - 48)) by lia. assert (H' : c - 48 < 10) by lia. revert H'. generalize (c - 48). intros n Hn.
    do 10 (destruct n as [|n]; [cbn; tauto|]). lia. }
  cbn in E. intuition (subst; reflexivity).
Qed.
Lemma more_digits_ok t : forall v, (forall c, In c t -> 48 <= c <= 57) ->
  more_digits (Z.of_nat v) t = Some (Z.of_nat (fold_left (fun v c => 10 * v + (c - 48)) t v)).
Proof.
  induction t as [|c t IH]; intros v H; [reflexivity|]. cbn [more_digits fold_left]. rewrite digit_ok by (apply H; left; reflexivity).
  rewrite <- IH by (intros x Hx; apply H; right; exact Hx). f_equal. lia.
Qed.
Lemma strip_digits t : (forall c, In c t -> 48 <= c <= 57) -> strip t = t.
Proof.
  intros H. apply strip_id; intros c t' E; apply digit_not_space, H; rewrite E; [left; reflexivity|apply in_or_app; right; left; reflexivity].
Qed.
Lemma unsigned_ok t k : denotes t k -> unsigned t = Some (Z.of_nat k).
Proof.
  intros (Hne & Hd & Hk). destruct t as [|c t]; [congruence|]. cbn [unsigned]. rewrite digit_ok by (apply Hd; left; reflexivity).
  rewrite more_digits_ok by (intros x Hx; apply Hd; right; exact Hx). cbn [fold_left] in Hk. rewrite Nat.mul_0_r in Hk. cbn [Nat.add] in Hk. rewrite Hk. reflexivity.
Qed.
Lemma py_int_numeral t k : denotes t k -> py_int t = Ok (Z.of_nat k).
Proof.
  intros H. pose proof (unsigned_ok t k H) as Hu. destruct H as (Hne & Hd & _). unfold py_int. rewrite (strip_digits t Hd). destruct t as [|c t]; [congruence|].
  assert (Hc : 48 <= c <= 57) by (apply Hd; left; reflexivity).
  rewrite (proj2 (Nat.eqb_neq c 45)), (proj2 (Nat.eqb_neq c 43)) by lia. rewrite Hu. reflexivity.
Qed.
Lemma more_digits_minus n : forall t acc, length t <= n -> In 45 t -> more_digits acc t = None.
Proof.
  induction n as [|n IH]; intros t acc Hl Hin; [destruct t; [destruct Hin|cbn in Hl; lia]|]. destruct t as [|c t]; [destruct Hin|]. cbn [more_digits]. cbn in Hl.
  destruct Hin as [-> |Hin]; [reflexivity|]. destruct (is_digit c); [apply IH; [lia|exact Hin]|]. destruct (c =? 95); [|reflexivity].
  destruct t as [|d t]; [destruct Hin|]. destruct Hin as [-> |Hin]; [reflexivity|]. destruct (is_digit d); [|reflexivity]. cbn in Hl. apply IH; [lia|exact Hin].
Qed.
Lemma split_none sep t : forall cur, ~ In sep t -> split_from sep cur t = [cur ++ t].
Proof.
  induction t as [|c t IH]; intros cur H; cbn [split_from]; [rewrite app_nil_r; reflexivity|].
  destruct (Nat.eqb_spec c sep) as [-> |N]; [exfalso; apply H; left; reflexivity|]. rewrite IH by (intros Hin; apply H; right; exact Hin). rewrite <- app_assoc. reflexivity.
Qed.
Lemma split_some sep t u : forall cur, ~ In sep t -> split_from sep cur (t ++ sep :: u) = (cur ++ t) :: split_from sep [] u.
Proof.
  induction t as [|c t IH]; intros cur H; cbn [split_from app]; [rewrite Nat.eqb_refl, app_nil_r; reflexivity|].
  destruct (Nat.eqb_spec c sep) as [-> |N]; [exfalso; apply H; left; reflexivity|]. rewrite IH by (intros Hin; apply H; right; exact Hin). rewrite <- app_assoc. reflexivity.
Qed.
Lemma numeral_no_minus t k : denotes t k -> ~ In 45 t.
Proof. intros (_ & Hd & _) H. specialize (Hd _ H). lia. Qed.

Lemma skip_filter {A} (l : list A) : forall s a b, map snd (filter (fun ix => (a <=? fst ix) && (fst ix <=? b)) (combine (seq s (length l)) l)) = firstn (b + 1 - Nat.max a s) (skipn (a - s) l).
Proof.
  induction l as [|x l IH]; intros s a b; cbn [length seq combine filter map fst]; [rewrite skipn_nil, firstn_nil; reflexivity|].
  destruct (Nat.leb_spec a s) as [Ha|Ha]; cbn [andb].
  - replace (a - s) with 0 by lia. cbn [skipn]. replace (Nat.max a s) with s by lia. destruct (Nat.leb_spec s b) as [Hb|Hb].
    + replace (b + 1 - s) with (S (b + 1 - S s)) by lia. cbn [map snd firstn]. f_equal. rewrite IH. replace (Nat.max a (S s)) with (S s) by lia. replace (a - S s) with 0 by lia. reflexivity.
    + rewrite IH. replace (b + 1 - Nat.max a (S s)) with 0 by lia. replace (b + 1 - s) with 0 by lia. reflexivity.
  - rewrite IH. replace (a - s) with (S (a - S s)) by lia. cbn [skipn]. f_equal. lia.
Qed.
Lemma slice_from_to {A} (l : list A) a b : py_slice l (Z.of_nat a, (Z.of_nat b + 1)%Z) = from_to a b l.
Proof.
  unfold from_to. rewrite skip_filter, Nat.max_0_r, Nat.sub_0_r. unfold py_slice, slice_bound. cbn [fst snd].
  rewrite (proj2 (Z.ltb_ge (Z.of_nat a) 0)), (proj2 (Z.ltb_ge (Z.of_nat b + 1) 0)) by lia.
  replace (Z.to_nat (Z.min (Z.of_nat (length l)) (Z.max 0 (Z.of_nat a)))) with (Nat.min (length l) a) by lia.
  replace (Z.to_nat (Z.min (Z.of_nat (length l)) (Z.max 0 (Z.of_nat b + 1)))) with (Nat.min (length l) (b + 1)) by lia.
  destruct (Nat.le_gt_cases (length l) a) as [H|H].
  - rewrite (skipn_all2 l (n := a)) by lia. rewrite (skipn_all2 l (n := Nat.min (length l) a)) by lia. rewrite !firstn_nil. reflexivity.
  - replace (Nat.min (length l) a) with a by lia. destruct (Nat.le_gt_cases (length l) (b + 1)) as [H'|H'].
    + replace (Nat.min (length l) (b + 1)) with (length l) by lia. rewrite !firstn_all2 by (rewrite skipn_length; lia). reflexivity.
    + replace (Nat.min (length l) (b + 1)) with (b + 1) by lia. reflexivity.
Qed.
Lemma from_to_one {A} (l : list A) k : from_to k k l = match nth_error l k with Some x => [x] | None => [] end.
Proof.
  unfold from_to. rewrite skip_filter, Nat.max_0_r, Nat.sub_0_r. replace (k + 1 - k) with 1 by lia. revert l; induction k as [|k IH]; intros [|x l]; cbn [skipn nth_error firstn]; try reflexivity. apply IH.
Qed.

(** no expression: every run *)
Theorem C45_all : forall A (l : list A), get_parameters_by_index None l = Ok l.
Proof. reflexivity. Qed.
(** a number: that run, if it exists *)
Theorem C45_single : forall A (l : list A) t k, denotes t k ->
  get_parameters_by_index (Some t) l = Ok (match nth_error l k with Some x => [x] | None => [] end).
Proof.
  intros A l t k H. unfold get_parameters_by_index, get_parameters_index. rewrite (py_int_numeral t k H). cbn [bind]. rewrite slice_from_to, from_to_one. reflexivity.
Qed.
Lemma range_slice t u rest a b : denotes t a -> denotes u b -> (rest = [] \/ exists r, rest = 45 :: r) ->
  get_parameters_index (Some (t ++ 45 :: u ++ rest)) = Ok (Some (Z.of_nat a, (Z.of_nat b + 1)%Z)).
Proof.
  intros Ht Hu Hr. unfold get_parameters_index.
  assert (E : py_int (t ++ 45 :: u ++ rest) = Err ValueError).
  { unfold py_int. pose proof Ht as (Hne & Hd & _). destruct t as [|c t]; [congruence|].
    assert (Hs : exists m, strip ((c :: t) ++ 45 :: u ++ rest) = (c :: t) ++ 45 :: u ++ m).
    { pose proof Hu as (Hnu & Hdu & _). destruct (exists_last Hnu) as (u' & x & Eu).
      assert (Hx : is_space x = false) by (apply digit_not_space, Hdu; rewrite Eu; apply in_or_app; right; left; reflexivity).
      unfold strip. rewrite (lstrip_id ((c :: t) ++ 45 :: u ++ rest)).
      2: { intros y t' E0. injection E0 as <- _. apply digit_not_space, Hd; left; reflexivity. }
      replace ((c :: t) ++ 45 :: u ++ rest) with (((c :: t) ++ 45 :: u) ++ rest) by (rewrite <- app_assoc; reflexivity). rewrite rev_app_distr.
      assert (G : exists m, lstrip (rev rest ++ rev ((c :: t) ++ 45 :: u)) = m ++ rev ((c :: t) ++ 45 :: u)).
      { assert (Hl : lstrip (rev ((c :: t) ++ 45 :: u)) = rev ((c :: t) ++ 45 :: u)).
        { apply lstrip_id. intros y t' E0. rewrite Eu in E0. replace ((c :: t) ++ 45 :: u' ++ [x]) with (((c :: t) ++ 45 :: u') ++ [x]) in E0 by (rewrite <- app_assoc; reflexivity).
          rewrite rev_app_distr in E0. injection E0 as <- _. exact Hx. }
        generalize (rev rest) as r. intros r. induction r as [|y r IH]; cbn [app]; [exists []; exact Hl|]. cbn [lstrip]. destruct (is_space y); [exact IH|exists (y :: r); reflexivity]. }
      destruct G as (m & Em). rewrite Em, rev_app_distr, rev_involutive. exists (rev m). rewrite <- app_assoc. reflexivity. }
    destruct Hs as (m & Es). rewrite Es. cbn [app]. assert (Hc : 48 <= c <= 57) by (apply Hd; left; reflexivity).
    rewrite (proj2 (Nat.eqb_neq c 45)), (proj2 (Nat.eqb_neq c 43)) by lia. cbn [unsigned]. rewrite (digit_ok c Hc).
    rewrite (more_digits_minus _ (t ++ 45 :: u ++ m) _ (Nat.le_refl _)) by (apply in_or_app; right; left; reflexivity). reflexivity. }
  rewrite E. assert (Em : mem 45 (t ++ 45 :: u ++ rest) = true) by (apply mem_In, in_or_app; right; left; reflexivity). rewrite Em.
  unfold create_slice_from_string, split_text. rewrite (split_some 45 t (u ++ rest) []) by (apply (numeral_no_minus t a Ht)).
  assert (Ep : exists ps, split_from 45 [] (u ++ rest) = u :: ps).
  { destruct Hr as [-> |(r & ->)]; [rewrite app_nil_r, split_none by (apply (numeral_no_minus u b Hu)); eauto|rewrite split_some by (apply (numeral_no_minus u b Hu)); eauto]. }
  destruct Ep as (ps & Ep). rewrite Ep. cbn [nth_error of_option bind app]. rewrite (py_int_numeral t a Ht), (py_int_numeral u b Hu). reflexivity.
Qed.
(** "a-b": the runs from a to b, both included *)
Theorem C45_range : forall A (l : list A) t u a b, denotes t a -> denotes u b ->
  get_parameters_by_index (Some (t ++ [45] ++ u)) l = Ok (from_to a b l).
Proof.
  intros A l t u a b Ht Hu. unfold get_parameters_by_index. pose proof (range_slice t u [] a b Ht Hu (or_introl eq_refl)) as E. rewrite app_nil_r in E. cbn [app]. rewrite E. cbn [bind]. rewrite slice_from_to. reflexivity.
Qed.
(** anything after a second '-' is ignored *)
Theorem C45_third_part_ignored : forall A (l : list A) t u rest a b, denotes t a -> denotes u b ->
  get_parameters_by_index (Some (t ++ [45] ++ u ++ [45] ++ rest)) l = Ok (from_to a b l).
Proof.
  intros A l t u rest a b Ht Hu. unfold get_parameters_by_index. pose proof (range_slice t u (45 :: rest) a b Ht Hu (or_intror (ex_intro _ rest eq_refl))) as E. cbn [app]. rewrite E. cbn [bind]. rewrite slice_from_to. reflexivity.
Qed.
Lemma py_int_negative t k : denotes t k -> py_int (45 :: t) = Ok (- Z.of_nat k)%Z.
Proof.
  intros H. pose proof (unsigned_ok t k H) as Hu. destruct H as (Hne & Hd & _). unfold py_int. rewrite strip_id.
  - cbn [Nat.eqb]. rewrite Hu. reflexivity.
  - intros c t' E. injection E as <- _. reflexivity.
  - intros c t' E. assert (Hin : In c (45 :: t)) by (rewrite E; apply in_or_app; right; left; reflexivity). destruct Hin as [<- |Hin]; [reflexivity|apply digit_not_space, Hd, Hin].
Qed.
(** "-k" with k >= 2: the k-th run from the end, if it exists *)
Theorem C45_from_end : forall A (l : list A) t k, denotes t k -> 2 <= k ->
  get_parameters_by_index (Some (45 :: t)) l = Ok (if k <=? length l then match nth_error l (length l - k) with Some x => [x] | None => [] end else []).
Proof.
  intros A l t k H Hk. unfold get_parameters_by_index, get_parameters_index. rewrite (py_int_negative t k H). cbn [bind]. f_equal.
  unfold py_slice, slice_bound. cbn [fst snd]. rewrite (proj2 (Z.ltb_lt (- Z.of_nat k) 0)), (proj2 (Z.ltb_lt (- Z.of_nat k + 1) 0)) by lia.
  destruct (Nat.leb_spec k (length l)) as [Hl|Hl].
  - rewrite <- from_to_one. unfold from_to. rewrite skip_filter, Nat.max_0_r, Nat.sub_0_r.
    replace (Z.to_nat (Z.min (Z.of_nat (length l)) (Z.max 0 (- Z.of_nat k + Z.of_nat (length l))))) with (length l - k) by lia. f_equal. lia.
  - match goal with |- firstn ?n _ = _ => replace n with 0 by lia end. reflexivity.
Qed.
(** "-1" selects nothing, however many runs there are *)
Theorem C45_last_run_refuted : forall A (l : list A), get_parameters_by_index (Some [45; 49]) l = Ok [].
Proof.
  intros A l. unfold get_parameters_by_index. change (get_parameters_index (Some [45; 49])) with (Ok (Some ((-1)%Z, 0%Z))). cbn [bind]. f_equal. unfold py_slice, slice_bound. cbn [fst snd].
  match goal with |- firstn ?n _ = _ => replace n with 0 by (cbn [Z.ltb Z.compare]; lia) end. reflexivity.
Qed.
(** a text that has no '-' and contains a character that no number contains is refused *)
Lemma more_digits_foreign n c0 : (is_digit c0 = false) -> c0 <> 95 -> forall t acc, length t <= n -> In c0 t -> more_digits acc t = None.
Proof.
  intros H1 H2. induction n as [|n IH]; intros t acc Hl Hin; [destruct t; [destruct Hin|cbn in Hl; lia]|]. destruct t as [|c t]; [destruct Hin|]. cbn [more_digits]. cbn in Hl.
  destruct Hin as [-> |Hin]; [rewrite H1, (proj2 (Nat.eqb_neq c0 95)) by exact H2; reflexivity|]. destruct (is_digit c); [apply IH; [lia|exact Hin]|]. destruct (c =? 95); [|reflexivity].
  destruct t as [|d t]; [destruct Hin|]. destruct Hin as [-> |Hin]; [rewrite H1; reflexivity|]. destruct (is_digit d); [|reflexivity]. cbn in Hl. apply IH; [lia|exact Hin].
Qed.
Lemma lstrip_keeps t c : is_space c = false -> In c t -> In c (lstrip t).
Proof. intros Hc; induction t as [|d t IH]; intros H; [destruct H|]. cbn [lstrip]. destruct (is_space d) eqn:E; [|exact H]. destruct H as [-> |H]; [congruence|auto]. Qed.
Theorem C45_garbage_refused : forall A (l : list A) s c, ~ In 45 s -> In c s -> (c < 48 \/ 57 < c) -> c <> 43 -> c <> 95 -> is_space c = false ->
  get_parameters_by_index (Some s) l = Err ValueError.
Proof.
  intros A l s c Hm Hc Hd H43 H95 Hsp. unfold get_parameters_by_index, get_parameters_index.
  assert (Hdg : is_digit c = false) by (unfold is_digit; apply andb_false_iff; destruct Hd; [left|right]; apply Nat.leb_gt; assumption).
  assert (E : py_int s = Err ValueError).
  { unfold py_int. assert (Hin : In c (strip s)) by (unfold strip; apply in_rev; rewrite rev_involutive; apply lstrip_keeps; [exact Hsp|]; apply in_rev; rewrite rev_involutive; apply lstrip_keeps; assumption).
    assert (Hnm : ~ In 45 (strip s)) by (intros H; apply Hm, (strip_incl s 45 H)).
    assert (Hu : forall t, In c t -> unsigned t = None).
    { intros t Ht. destruct t as [|x t]; [reflexivity|]. cbn [unsigned]. destruct (is_digit x) eqn:Ex; [|reflexivity].
      destruct Ht as [-> |Ht]; [congruence|]. apply (more_digits_foreign (length t) c Hdg H95 t _ (Nat.le_refl _) Ht). }
    destruct (strip s) as [|x t]; [destruct Hin|]. destruct (Nat.eqb_spec x 45) as [-> |N]; [exfalso; apply Hnm; left; reflexivity|].
    destruct (Nat.eqb_spec x 43) as [-> |N']; [|rewrite (Hu (x :: t) Hin); reflexivity]. destruct Hin as [Hin|Hin]; [congruence|]. rewrite (Hu t Hin). reflexivity. }
  rewrite E, (proj2 (mem_false 45 s) Hm). reflexivity.
Qed.
(** every number has a numeral *)
Lemma digits_denote u v : fold_left (fun v c => 10 * v + (c - 48)) (digits u) v = Nat.of_uint_acc u v.
Proof. revert v; induction u; intros v; cbn [digits fold_left Nat.of_uint_acc]; [reflexivity|..]; rewrite IHu, Nat.tail_mul_spec; f_equal; lia. Qed.
Lemma digits_range u c : In c (digits u) -> 48 <= c <= 57.
Proof. induction u; cbn [digits In]; intros H; [destruct H|..]; (destruct H as [<- |H]; [lia|auto]). Qed.
Theorem C45_every_number_has_a_numeral : forall k, denotes (digits (Nat.to_uint k)) k.
Proof.
  intros k. split; [|split; [apply digits_range|]].
  - intros E. assert (Nat.to_uint k = Decimal.Nil) by (destruct (Nat.to_uint k); cbn in E; congruence).
    assert (Ek : Nat.of_uint (Nat.to_uint k) = k) by apply DecimalNat.Unsigned.of_to. rewrite H in Ek. cbn in Ek. subst k. discriminate H.
  - rewrite digits_denote. fold (Nat.of_uint (Nat.to_uint k)). apply DecimalNat.Unsigned.of_to.
Qed.
Example C45_nonvacuous : denotes [48; 50] 2 /\ from_to 1 2 ["a"; "b"; "c"; "d"]%string = ["b"; "c"]%string /\
  get_parameters_by_index (Some [49; 45; 50]) ["a"; "b"; "c"; "d"]%string = Ok ["b"; "c"]%string.
Proof. split; [split; [discriminate|]; split; [|reflexivity]; intros c H; cbn in H; lia|]. split; reflexivity. Qed.

(** ** C46 *)
(** number of positions at which expected and predicted value satisfy a condition *)
Definition positions_with (P : bool -> bool -> bool) (expected predicted : list Z) : nat :=
  length (filter (fun i => P (negb (Z.eqb (nth i expected 0%Z) 0)) (negb (Z.eqb (nth i predicted 0%Z) 0))) (seq 0 (length predicted))).

Lemma filter_shift (f : nat -> bool) l : length (filter f (map S l)) = length (filter (fun i => f (S i)) l).
Proof. induction l as [|i l IH]; [reflexivity|]. cbn [map filter]. destruct (f (S i)); cbn [length]; rewrite IH; reflexivity. Qed.
Lemma positions_cons P e es p ps : positions_with P (e :: es) (p :: ps) = (if P (negb (Z.eqb e 0)) (negb (Z.eqb p 0)) then 1 else 0) + positions_with P es ps.
Proof.
  unfold positions_with. cbn [length seq]. rewrite <- seq_shift. cbn [filter]. change (nth 0 (e :: es) 0%Z) with e. change (nth 0 (p :: ps) 0%Z) with p.
  destruct (P _ _); cbn [length]; rewrite filter_shift; reflexivity.
Qed.
Lemma sum_and P (f g : bool -> bool) : (forall x y, P x y = f x && g y) -> forall es ps, length es = length ps ->
  exists r, logical_and (map f (map truthy es)) (map g (map truthy ps)) = Ok r /\ numpy_sum r = positions_with P es ps.
Proof.
  intros HP es ps Hl. unfold logical_and. rewrite !map_length, Hl, Nat.eqb_refl. eexists. split; [reflexivity|]. revert ps Hl. induction es as [|e es IH]; intros [|p ps] Hl; cbn in Hl; try discriminate; [reflexivity|].
  rewrite positions_cons, <- IH by lia. cbn [map combine numpy_sum fold_right fst snd]. rewrite HP. reflexivity.
Qed.
Lemma map_id_bool (l : list bool) : map (fun b : bool => b) l = l.
Proof. apply map_id. Qed.
(** The four counts are exact and every prediction is counted exactly once. *)
Theorem C46_confusion_counts : forall expected predicted, length expected = length predicted ->
  exists ev, evaluate_classifier_predictions expected predicted = Ok ev /\
    TP ev = positions_with (fun e p => e && p) expected predicted /\ TN ev = positions_with (fun e p => negb e && negb p) expected predicted /\
    FP ev = positions_with (fun e p => negb e && p) expected predicted /\ FN ev = positions_with (fun e p => e && negb p) expected predicted /\
    TP ev + TN ev + FP ev + FN ev = length predicted.
Proof.
  intros es ps Hl. unfold evaluate_classifier_predictions, logical_not.
  destruct (sum_and (fun e p => e && p) (fun b => b) (fun b => b) (fun _ _ => eq_refl) es ps Hl) as (r1 & E1 & S1).
  destruct (sum_and (fun e p => negb e && negb p) negb negb (fun _ _ => eq_refl) es ps Hl) as (r2 & E2 & S2).
  destruct (sum_and (fun e p => negb e && p) negb (fun b => b) (fun _ _ => eq_refl) es ps Hl) as (r3 & E3 & S3).
  destruct (sum_and (fun e p => e && negb p) (fun b => b) negb (fun _ _ => eq_refl) es ps Hl) as (r4 & E4 & S4).
  rewrite !map_id_bool in *. rewrite E1, E2, E3, E4. cbn [bind]. eexists. split; [reflexivity|]. cbn [TP TN FP FN]. rewrite S1, S2, S3, S4. repeat (split; [reflexivity|]).
  clear -Hl. revert ps Hl. induction es as [|e es IH]; intros [|p ps] Hl; cbn in Hl; try discriminate; [reflexivity|]. rewrite !positions_cons. cbn [length]. rewrite <- (IH ps) by lia.
  destruct (negb (e =? 0)%Z), (negb (p =? 0)%Z); cbn [andb negb]; lia.
Qed.
(** Vectors of different lengths, both of at least two entries, are refused ... *)
Theorem C46_different_lengths_refused : forall expected predicted, length expected <> length predicted -> length expected <> 1 -> length predicted <> 1 ->
  evaluate_classifier_predictions expected predicted = Err ValueError.
Proof.
  intros es ps Hl H1 H2. unfold evaluate_classifier_predictions. assert (E : logical_and (map truthy es) (map truthy ps) = Err ValueError); [|rewrite E; reflexivity].
  unfold logical_and. rewrite !map_length, (proj2 (Nat.eqb_neq _ _) Hl). destruct es as [|? [|? es]]; cbn in H1; try congruence; destruct ps as [|? [|? ps]]; cbn in H2, Hl; try congruence; reflexivity.
Qed.
(** ... but a single expected value is compared with every prediction. *)
Theorem C46_broadcast_refuted : exists ev, evaluate_classifier_predictions [1%Z] [1; 1; 0]%Z = Ok ev /\ TP ev = 2 /\ FN ev = 1.
Proof. eexists. split; [reflexivity|]. split; reflexivity. Qed.

(** the chosen columns of a matrix *)
Definition columns_of (m : smat) (n : nat) (cols : list nat) : list (list Z) := map (fun r => map (fun c => entry m r c) cols) (seq 0 n).
Definition column_of (m : smat) (n : nat) (c : nat) : list Z := map (fun r => entry m r c) (seq 0 n).

Lemma get_column_ok m nr nc k : rectangular m nr nc -> k < nc -> get_column m (Z.of_nat k) = Ok (column_of m nr k).
Proof.
  intros (H1 & H2 & H3) Hk. unfold get_column. assert (E : py_index (sm_ncols m) (Z.of_nat k) = Ok k) by (apply py_index_means; split; [lia|left; reflexivity]).
  rewrite E. cbn [bind]. rewrite (mapM_ok _ (fun row => nth k row 0%Z)).
  - f_equal. unfold column_of, entry. rewrite <- H1, <- (map_map (fun r => nth r (sm_rows m) []) (fun row => nth k row 0%Z)), map_nth_seq. reflexivity.
  - intros row Hin. rewrite Forall_forall in H3. rewrite (nth_error_nth' row 0%Z) by (rewrite (H3 row Hin); exact Hk). reflexivity.
Qed.
Lemma gather_seq n ps : Forall (fun i => i < n) ps -> py_gather (seq 0 n) (map Z.of_nat ps) = Ok ps.
Proof.
  intros H. unfold py_gather. induction H as [|i ps Hi Hps IH]; [reflexivity|]. cbn [map mapM]. unfold py_get at 1. rewrite seq_length.
  assert (E : py_index n (Z.of_nat i) = Ok i) by (apply py_index_means; split; [exact Hi|left; reflexivity]). rewrite E. cbn [bind]. rewrite (nth_error_nth' (seq 0 n) 0) by (rewrite seq_length; exact Hi). rewrite seq_nth by exact Hi.
  cbn [of_option bind Nat.add]. rewrite IH. reflexivity.
Qed.
Lemma sort_Z_nat l : sort_Z (map Z.of_nat l) = map Z.of_nat (sort_nat l).
Proof.
  induction l as [|x l IH]; [reflexivity|]. cbn [map sort_Z fold_right sort_nat]. fold (sort_Z (map Z.of_nat l)) (sort_nat l). rewrite IH. generalize (sort_nat l). intros m.
  induction m as [|y m IHm]; [reflexivity|]. cbn [map insert_Z insert_nat]. destruct (Nat.leb_spec x y) as [H|H].
  - rewrite (proj2 (Z.leb_le _ _)) by lia. reflexivity.
  - rewrite (proj2 (Z.leb_gt _ _)) by lia. cbn [map]. f_equal. exact IHm.
Qed.
Lemma select_features d mb : aligned d -> mb <> [] -> Forall (fun c => c < length (dm_labels_X d)) mb ->
  exists d', select_columns_X d (map Z.of_nat mb) "" = Ok d' /\ dm_Y d' = dm_Y d /\
    sm_rows (dm_X d') = columns_of (dm_X d) (length (dm_row_labels d)) (sort_nat mb) /\ sm_ncols (dm_X d') = length mb.
Proof.
  intros HA Hne Hc. pose proof HA as (HX & HY). unfold select_columns_X. destruct mb as [|c0 mb']; [congruence|]. cbn [map]. set (mb := c0 :: mb') in *.
  change (Z.of_nat c0 :: map Z.of_nat mb') with (map Z.of_nat mb). rewrite sort_Z_nat.
  assert (Hs : Forall (fun c => c < length (dm_labels_X d)) (sort_nat mb)) by (apply Forall_forall; intros c H; apply (proj1 (sort_in _ _)) in H; rewrite Forall_forall in Hc; auto).
  pose proof (whole_matrix _ _ _ HX) as HW. destruct (take_cols_shows _ _ _ _ _ _ HW (gather_seq _ _ Hs)) as (X' & EX & (V1 & V2) & _). rewrite EX. cbn [bind].
  assert (EL : exists ls, py_gather (dm_labels_X d) (map Z.of_nat (sort_nat mb)) = Ok ls).
  { destruct (mapM_exists (py_get (dm_labels_X d)) (fun _ _ => True) (map Z.of_nat (sort_nat mb))) as (ls & E & _); [|exists ls; exact E]. intros z Hz. apply in_map_iff in Hz as (c & <- & Hin).
    rewrite Forall_forall in Hs. specialize (Hs c Hin). unfold py_get. assert (E : py_index (length (dm_labels_X d)) (Z.of_nat c) = Ok c) by (apply py_index_means; split; [exact Hs|left; reflexivity]).
    rewrite E. cbn [bind]. rewrite (nth_error_nth' (A := text) (dm_labels_X d) [] Hs). cbn [of_option]. eauto. }
  destruct EL as (ls & EL). rewrite EL. cbn [bind]. eexists. split; [reflexivity|]. cbn [dm_X dm_Y]. split; [reflexivity|]. split; [exact V2|]. rewrite V1, <- (Permutation_length (sort_perm mb)). reflexivity.
Qed.

(** Evaluating a classifier: it is fitted on the chosen columns of the training rows (in increasing
    order) with the training objective, predicts from the same columns of the test rows, and is
    compared with the test objective.  fit and predict are arbitrary functions of the content. *)
Theorem C46_evaluate_classifier : forall (model : Type) (fit : list (list Z) -> list Z -> res model) (predict : model -> list (list Z) -> res (list Z)) train test mb k,
  aligned train -> aligned test -> mb <> [] ->
  Forall (fun c => c < length (dm_labels_X train)) mb -> Forall (fun c => c < length (dm_labels_X test)) mb ->
  k < length (dm_labels_Y train) -> k < length (dm_labels_Y test) ->
  evaluate_classifier (fun X y => fit (sm_rows X) y) (fun m X => predict m (sm_rows X)) train test mb (Z.of_nat k) =
  (m <- fit (columns_of (dm_X train) (length (dm_row_labels train)) (sort_nat mb)) (column_of (dm_Y train) (length (dm_row_labels train)) k) ;;
   predictions <- predict m (columns_of (dm_X test) (length (dm_row_labels test)) (sort_nat mb)) ;;
   evaluate_classifier_predictions (column_of (dm_Y test) (length (dm_row_labels test)) k) predictions).
Proof.
  intros model fit predict train test mb k Htr Hte Hne H1 H2 H3 H4. unfold evaluate_classifier.
  destruct (select_features train mb Htr Hne H1) as (tr & E1 & Y1 & X1 & _). destruct (select_features test mb Hte Hne H2) as (te & E2 & Y2 & X2 & _).
  rewrite E1, E2. cbn [bind]. rewrite Y1, Y2. rewrite (get_column_ok _ _ _ _ (proj2 Htr) H3), (get_column_ok _ _ _ _ (proj2 Hte) H4). cbn [bind]. rewrite X1, X2. reflexivity.
Qed.
Print Assumptions C46_evaluate_classifier.
(** An empty Markov boundary cannot be evaluated: no columns can be selected. *)
Theorem C46_empty_boundary_refused : forall model (fit : smat -> list Z -> res model) predict train test k, evaluate_classifier fit predict train test [] k = Err ValueError.
Proof. reflexivity. Qed.
Example C46_nonvacuous : evaluate_classifier (fun X y => Ok (sm_rows X)) (fun m X => Ok [1; 1; 0]%Z) sample sample [2; 0] 0 = Ok {| TP := 1; TN := 0; FP := 1; FN := 1 |} /\
  aligned sample /\ Forall (fun c => c < length (dm_labels_X sample)) [2; 0].
Proof. split; [reflexivity|]. split; [apply sample_aligned|]. repeat constructor. Qed.
