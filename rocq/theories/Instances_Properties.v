(** PMF.create_instances_list (C11). *)
From Coq Require Import QArith Qround Qminmax Lqa.
From Verif Require Import Base Key_Model Key_Spec Key_Proofs Instances_Model.
Open Scope Z_scope.

(** ** Specification *)
Definition occurrences (k : pyobj) (l : list pyobj) : Z := Z.of_nat (length (filter (pyobj_eqb k) l)).
Definition Qsum (l : list Q) : Q := fold_right Qplus 0%Q l.
(** a probability table: distinct values, no negative probability, total 1 *)
Definition probability_table (d : list (pyobj * Q)) : Prop :=
  NoDup (map fst d) /\ (forall k q, In (k, q) d -> 0 <= q)%Q /\ (Qsum (map snd d) == 1)%Q.

(** ** Rounding *)
Lemma py_round_near q : (inject_Z (py_round q) - (1#2) <= q <= inject_Z (py_round q) + (1#2))%Q.
Proof.
  unfold py_round. pose proof (Qfloor_le q) as H1. pose proof (Qlt_floor q) as H2. rewrite inject_Z_plus in H2. change (inject_Z 1) with 1%Q in H2.
  assert (H3 : inject_Z (Qfloor q + 1) == inject_Z (Qfloor q) + 1) by (rewrite inject_Z_plus; reflexivity).
  destruct (q - inject_Z (Qfloor q) ?= 1#2)%Q eqn:E.
  - apply Qeq_alt in E. destruct (Z.even (Qfloor q)); rewrite ?H3; split; lra.
  - apply Qlt_alt in E. split; lra.
  - apply Qgt_alt in E. rewrite H3. split; lra.
Qed.
Lemma py_round_int q m : (q == inject_Z m)%Q -> py_round q = m.
Proof.
  intros H. assert (E : Qfloor q = m) by (rewrite H; apply Qfloor_Z). unfold py_round. rewrite E.
  assert (Hc : (q - inject_Z m ?= 1#2)%Q = Lt) by (apply Qlt_alt; rewrite H; unfold Qminus; rewrite Qplus_opp_r; reflexivity). rewrite Hc. reflexivity.
Qed.

(** ** Sorting *)
Lemma insert_perm x l : Permutation (x :: l) (insert_desc x l).
Proof. induction l as [|y l IH]; simpl; [auto|]. destruct (Qle_bool (snd y) (snd x)); [auto|]. rewrite perm_swap. auto. Qed.
Lemma sorted_perm l : Permutation l (sorted_desc l).
Proof. induction l as [|x l IH]; simpl; [auto|]. rewrite IH at 1. apply insert_perm. Qed.
Definition desc (l : list (pyobj * Q)) : Prop := StronglySorted (fun a b => snd b <= snd a)%Q l.
Lemma insert_sorted x l : desc l -> desc (insert_desc x l).
Proof.
  unfold desc. induction 1 as [|y l Hs IH Hf]; simpl; [repeat constructor|]. destruct (Qle_bool (snd y) (snd x)) eqn:E.
  - apply Qle_bool_iff in E. constructor; [constructor; assumption|]. constructor; [assumption|]. eapply Forall_impl; [|exact Hf]. intros a Ha. cbv beta in *. lra.
  - constructor; [assumption|]. assert (Hlt : (snd x <= snd y)%Q). { destruct (Qlt_le_dec (snd x) (snd y)) as [|H]; [lra|]. apply Qle_bool_iff in H. congruence. }
    apply (Permutation_Forall (insert_perm x l)). constructor; assumption.
Qed.
Lemma sorted_sorted l : desc (sorted_desc l).
Proof. induction l as [|x l IH]; simpl; [constructor|]. apply insert_sorted. assumption. Qed.

(** ** The loop *)
Definition share (n : Z) (kq : pyobj * Q) : Z := Z.max 1 (py_round (inject_Z n * snd kq)).
Definition zs (l : list Z) : Z := fold_right Z.add 0 l.
Lemma fill_ok n keys : forall running, 0 <= running -> forall l r, fill n running keys = (l, r) ->
  0 <= r /\ Z.of_nat (length l) + r = running /\ (forall k, In k l -> In k (map fst keys)) /\
  (0 < r -> r = running - zs (map (share n) keys) /\ forall k, In k (map fst keys) -> In k l).
Proof.
  induction keys as [|[key q] keys IH]; intros running Hr l r E; cbn [fill] in E.
  - injection E as <- <-. simpl. repeat split; try lia; try contradiction.
  - cbv zeta in E. fold (share n (key, q)) in E. assert (Hs : 1 <= share n (key, q)) by (unfold share; lia). set (s := share n (key, q)) in *.
    change (Z.max 1 (py_round (inject_Z n * q))) with s in E.
    destruct (Z.ltb_spec running s).
    + replace (running - running) with 0 in E by lia. cbn [Z.eqb] in E. injection E as <- <-. rewrite repeat_length. repeat split; try lia.
      intros k Hk. apply repeat_spec in Hk. left. auto.
    + destruct (Z.eqb_spec (running - s) 0) as [E0|E0].
      * injection E as <- <-. rewrite repeat_length. repeat split; try lia. intros k Hk. apply repeat_spec in Hk. left. auto.
      * destruct (fill n (running - s) keys) as [l' r'] eqn:Ef. injection E as <- <-. destruct (IH (running - s) ltac:(lia) l' r' Ef) as (H1 & H2 & H3 & H4).
        rewrite app_length, repeat_length. split; [lia|]. split; [lia|]. split.
        -- intros k Hk. apply in_app_iff in Hk as [Hk|Hk]; [apply repeat_spec in Hk; left; auto|right; auto].
        -- intros Hp. destruct (H4 Hp) as (H5 & H6). cbn [map zs fold_right]. split; [fold (zs (map (share n) keys)); fold s; lia|].
           intros k [<-|Hk]; apply in_app_iff; [left|right; auto]. cbn [fst]. destruct (Z.to_nat s) eqn:En; [lia|left; reflexivity].
Qed.
Lemma shares_length n keys : Z.of_nat (length keys) <= zs (map (share n) keys).
Proof. induction keys as [|k keys IH]; [simpl; lia|]. cbn [length map zs fold_right]. fold (zs (map (share n) keys)). unfold share at 1. lia. Qed.
Lemma fill_nonpos n keys : n <= 0 -> keys <> [] -> fill n n keys = ([], 0).
Proof.
  intros Hn Hk. destruct keys as [|[k q] keys]; [congruence|]. cbn [fill]. cbv zeta.
  assert (H : n < Z.max 1 (py_round (inject_Z n * q))) by lia. apply Z.ltb_lt in H. rewrite H. replace (n - n) with 0 by lia. cbn [Z.eqb].
  replace (Z.to_nat n) with O by lia. reflexivity.
Qed.

(** ** Properties *)
Lemma terminates fuel : forall d n, d <> [] -> n < Z.of_nat fuel -> (0 < fuel)%nat ->
  exists l, create_instances_list fuel d n = Some l /\ Z.of_nat (length l) = Z.max 0 n /\ (forall k, In k l -> In k (map fst d)).
Proof.
  induction fuel as [|fuel IH]; intros d n Hd Hn Hf; [lia|]. cbn [create_instances_list].
  assert (Hsd : sorted_desc d <> []) by (intros E; apply Hd, Permutation_nil; rewrite <- E; apply Permutation_sym, sorted_perm).
  assert (Hin : forall k, In k (map fst (sorted_desc d)) -> In k (map fst d)) by (intros k; apply Permutation_in, Permutation_map, Permutation_sym, sorted_perm).
  destruct (Z_le_gt_dec n 0) as [Hle|Hgt].
  - rewrite fill_nonpos by assumption. cbn. exists []. split; [reflexivity|]. split; [simpl; lia|intros k []].
  - destruct (fill n n (sorted_desc d)) as [l r] eqn:E. destruct (fill_ok n (sorted_desc d) n ltac:(lia) l r E) as (H1 & H2 & H3 & H4).
    destruct (Z.ltb_spec 0 r).
    + destruct (H4 H) as (H5 & _). pose proof (shares_length n (sorted_desc d)) as Hs. destruct (sorted_desc d) as [|x s] eqn:Es; [congruence|]. simpl length in Hs.
      destruct (IH d r Hd ltac:(lia) ltac:(lia)) as (l' & E' & Hl' & Hi'). rewrite E'. exists (l ++ l'). split; [reflexivity|]. rewrite app_length. split; [lia|].
      intros k Hk. apply in_app_iff in Hk as [Hk|Hk]; auto.
    + exists l. split; [reflexivity|]. split; [lia|auto].
Qed.
Theorem C11_exact_length : forall d n, d <> [] -> exists fuel l, create_instances_list fuel d n = Some l /\
  Z.of_nat (length l) = Z.max 0 n /\ (forall k, In k l -> In k (map fst d)).
Proof. intros d n Hd. exists (S (Z.to_nat (Z.max 0 n))). apply terminates; [assumption|lia|lia]. Qed.
Print Assumptions C11_exact_length.

Lemma Qsum_perm l m : Permutation l m -> (Qsum l == Qsum m)%Q.
Proof. induction 1; simpl; lra. Qed.
Lemma shares_bound n keys : (inject_Z n * Qsum (map snd keys) - (1#2) * inject_Z (Z.of_nat (length keys)) <= inject_Z (zs (map (share n) keys)))%Q.
Proof.
  induction keys as [|[k q] keys IH]; [cbn [map Qsum fold_right zs length]; change (inject_Z (Z.of_nat 0)) with 0%Q; change (inject_Z 0) with 0%Q; lra|]. cbn [map Qsum fold_right zs length snd]. fold (Qsum (map snd keys)). fold (zs (map (share n) keys)).
  rewrite Nat2Z.inj_succ. unfold Z.succ. rewrite !inject_Z_plus. change (inject_Z 1) with 1%Q.
  assert (Hs : (inject_Z n * q - (1#2) <= inject_Z (share n (k, q)))%Q).
  { pose proof (py_round_near (inject_Z n * q)) as (_ & H). assert (Hm : (inject_Z (py_round (inject_Z n * q)) <= inject_Z (share n (k, q)))%Q) by (rewrite <- Zle_Qle; unfold share; cbn [snd]; lia). lra. }
  lra.
Qed.
(** with probabilities that sum to one, the recursion is at most two deep *)
Theorem C11_two_levels : forall d n, probability_table d -> exists l, create_instances_list 2 d n = Some l.
Proof.
  intros d n (HN & Hq & Hs). assert (Hd : d <> []) by (intros ->; simpl in Hs; lra).
  assert (Hsd : sorted_desc d <> []) by (intros E; apply Hd, Permutation_nil; rewrite <- E; apply Permutation_sym, sorted_perm).
  cbn [create_instances_list]. destruct (Z_le_gt_dec n 0) as [Hle|Hgt]; [rewrite fill_nonpos by assumption; cbn; eauto|].
  destruct (fill n n (sorted_desc d)) as [l r] eqn:E. destruct (Z.ltb_spec 0 r); [|eauto].
  destruct (fill_ok n (sorted_desc d) n ltac:(lia) l r E) as (_ & _ & _ & H4). destruct (H4 H) as (Hr & _).
  destruct (fill r r (sorted_desc d)) as [l2 r2] eqn:E2. destruct (Z.ltb_spec 0 r2); [|eauto]. exfalso.
  destruct (fill_ok r (sorted_desc d) r ltac:(lia) l2 r2 E2) as (_ & _ & _ & G4). destruct (G4 H0) as (Hr2 & _).
  pose proof (shares_length r (sorted_desc d)) as L2. pose proof (shares_bound n (sorted_desc d)) as B.
  assert (Es : (Qsum (map snd (sorted_desc d)) == 1)%Q) by (rewrite <- Hs; apply Qsum_perm, Permutation_map, Permutation_sym, sorted_perm). rewrite Es in B.
  assert (Hz : (inject_Z n - inject_Z (zs (map (share n) (sorted_desc d))) <= (1#2) * inject_Z (Z.of_nat (length (sorted_desc d))))%Q) by lra.
  assert (Hz2 : (inject_Z (2 * r) <= inject_Z (Z.of_nat (length (sorted_desc d))))%Q).
  { rewrite Hr, inject_Z_mult. unfold Z.sub. rewrite inject_Z_plus, inject_Z_opp. change (inject_Z 2) with 2%Q. lra. }
  rewrite <- Zle_Qle in Hz2. lia.
Qed.
Print Assumptions C11_two_levels.

Lemma create_fuel fuel : forall fuel' d n l l', create_instances_list fuel d n = Some l -> create_instances_list fuel' d n = Some l' -> l = l'.
Proof.
  induction fuel as [|fuel IH]; intros [|fuel'] d n l l'; cbn [create_instances_list]; try discriminate.
  destruct (fill n n (sorted_desc d)) as [i r]. destruct (0 <? r); [|congruence].
  destruct (create_instances_list fuel d r) as [e|] eqn:E1; [|discriminate]. destruct (create_instances_list fuel' d r) as [e'|] eqn:E2; [|discriminate].
  intros H1 H2. injection H1 as <-. injection H2 as <-. rewrite (IH fuel' d r e e' E1 E2). reflexivity.
Qed.

Lemma occ_app k l m : occurrences k (l ++ m) = occurrences k l + occurrences k m.
Proof. unfold occurrences. rewrite filter_app, app_length. lia. Qed.
Lemma occ_repeat k k' c : occurrences k (repeat k' c) = if pyobj_eqb k k' then Z.of_nat c else 0.
Proof. unfold occurrences. induction c as [|c IH]; simpl; [destruct (pyobj_eqb k k'); reflexivity|]. destruct (pyobj_eqb k k') eqn:E; [|assumption]. simpl length. lia. Qed.
Lemma occ_notin k l : ~ In k l -> occurrences k l = 0.
Proof.
  unfold occurrences. intros H. induction l as [|x l IH]; [reflexivity|]. simpl. destruct (pyobj_eqb_spec k x) as [->|]; [exfalso; apply H; left; reflexivity|]. apply IH. intros Hx; apply H; right; assumption.
Qed.
Lemma zs_perm l m : Permutation l m -> zs l = zs m.
Proof. unfold zs. induction 1; simpl; lia. Qed.
Lemma fill_exact n keys : forall running, running = zs (map (share n) keys) -> keys <> [] -> NoDup (map fst keys) ->
  exists l, fill n running keys = (l, 0) /\ forall k q, In (k, q) keys -> occurrences k l = share n (k, q).
Proof.
  induction keys as [|[key q] keys IH]; intros running Hr Hne HN; [congruence|]. cbn [map zs fold_right] in Hr. fold (zs (map (share n) keys)) in Hr.
  inversion HN as [|? ? Hk HN']; subst. cbn [fst map] in Hk. cbn [fill]. cbv zeta. change (Z.max 1 (py_round (inject_Z n * q))) with (share n (key, q)).
  assert (Hs : 1 <= share n (key, q)) by (unfold share; lia). pose proof (shares_length n keys) as Hl. set (s := share n (key, q)) in *. set (rest := zs (map (share n) keys)) in *.
  destruct (Z.ltb_spec (s + rest) s); [lia|]. destruct (Z.eqb_spec (s + rest - s) 0) as [E|E].
  - destruct keys as [|x keys]; [|simpl length in Hl; lia]. exists (repeat key (Z.to_nat s)). split; [f_equal; lia|].
    intros k q' [E'|[]]. injection E' as <- <-. rewrite occ_repeat, pyobj_eqb_refl. fold s. lia.
  - assert (Hne' : keys <> []) by (intros ->; apply E; unfold rest; simpl; lia).
    destruct (IH (s + rest - s) ltac:(unfold rest; lia) Hne' HN') as (l & El & Ho). rewrite El. exists (repeat key (Z.to_nat s) ++ l). split; [reflexivity|].
    destruct (fill_ok n keys (s + rest - s) ltac:(lia) l 0 El) as (_ & _ & Hin & _).
    intros k q' [E'|Hq].
    + injection E' as <- <-. rewrite occ_app, occ_repeat, pyobj_eqb_refl, occ_notin; [fold s; lia|]. intros Hx. apply Hk, Hin, Hx.
    + rewrite occ_app, occ_repeat. destruct (pyobj_eqb_spec k key) as [->|]; [exfalso; apply Hk; apply (in_map fst) in Hq; exact Hq|]. rewrite (Ho k q' Hq). lia.
Qed.
(** if n times each probability is a positive whole number, the list has exactly these counts *)
Theorem C11_faithful : forall d n l fuel, probability_table d -> (forall k q, In (k, q) d -> exists m, 1 <= m /\ (inject_Z n * q == inject_Z m)%Q) ->
  create_instances_list fuel d n = Some l -> forall k q, In (k, q) d -> (inject_Z (occurrences k l) == inject_Z n * q)%Q.
Proof.
  intros d n l fuel (HN & Hq & Hs) Hm E k q Hin. assert (Hd : d <> []) by (intros ->; destruct Hin).
  assert (Hsd : sorted_desc d <> []) by (intros E'; apply Hd, Permutation_nil; rewrite <- E'; apply Permutation_sym, sorted_perm).
  assert (Hsh : forall k q, In (k, q) d -> (inject_Z (share n (k, q)) == inject_Z n * q)%Q).
  { intros k' q' H'. destruct (Hm k' q' H') as (m & H1 & H2). unfold share. cbn [snd]. rewrite (py_round_int _ m H2), H2, Z.max_r by lia. reflexivity. }
  assert (Hn : n = zs (map (share n) (sorted_desc d))).
  { apply inject_Z_injective. transitivity (inject_Z n * Qsum (map snd d))%Q; [rewrite Hs; lra|]. rewrite <- (zs_perm _ _ (Permutation_map (share n) (sorted_perm d))).
    clear -Hsh. induction d as [|[k q] d IH]; [cbn [map Qsum fold_right zs]; change (inject_Z 0) with 0%Q; lra|]. cbn [map Qsum fold_right zs snd]. fold (Qsum (map snd d)). fold (zs (map (share n) d)). rewrite inject_Z_plus, <- IH by (intros; apply Hsh; right; assumption).
    rewrite (Hsh k q) by (left; reflexivity). lra. }
  destruct (fill_exact n (sorted_desc d) n Hn Hsd) as (l' & El & Ho); [apply (Permutation_NoDup (Permutation_map fst (sorted_perm d))); assumption|].
  destruct fuel as [|fuel]; [discriminate|]. cbn [create_instances_list] in E. rewrite El in E. cbn in E. injection E as <-.
  rewrite (Ho k q); [apply Hsh; assumption|]. apply (Permutation_in _ (sorted_perm d)). assumption.
Qed.
Print Assumptions C11_faithful.

Lemma fill_prefix n keys : forall running l r, 0 < running -> desc keys -> fill n running keys = (l, r) ->
  forall k q k' q', In (k, q) keys -> In (k', q') keys -> (q' < q)%Q -> In k' l -> (forall q0, In (k', q0) keys -> (q0 == q')%Q) -> In k l.
Proof.
  induction keys as [|[key p] keys IH]; intros running l r Hr Hd E k q k' q' Hk Hk' Hlt Hin Hu; [destruct Hk|].
  cbn [fill] in E. cbv zeta in E. change (Z.max 1 (py_round (inject_Z n * p))) with (share n (key, p)) in E. assert (Hs : 1 <= share n (key, p)) by (unfold share; lia). set (s := share n (key, p)) in *.
  inversion Hd as [|? ? Hd' Hf]; subst. rewrite Forall_forall in Hf.
  assert (Hkey : k' <> key).
  { intros ->. assert (Hp : (p == q')%Q) by (apply Hu; left; reflexivity). destruct Hk as [E'|Hk]; [injection E' as <- <-; lra|]. specialize (Hf _ Hk). cbn [snd] in Hf. lra. }
  assert (Hhead : forall c, 1 <= c -> In key (repeat key (Z.to_nat c))) by (intros c Hc; destruct (Z.to_nat c) eqn:En; [lia|left; reflexivity]).
  assert (Hmain : exists c rest, l = repeat key (Z.to_nat c) ++ rest /\ 1 <= c /\ (rest = [] \/ exists running', 0 < running' /\ fill n running' keys = (rest, r))).
  { destruct (Z.ltb_spec running s).
    - replace (running - running) with 0 in E by lia. cbn [Z.eqb] in E. injection E as <- <-. exists running, []. rewrite app_nil_r. auto with zarith.
    - destruct (Z.eqb_spec (running - s) 0).
      + injection E as <- <-. exists s, []. rewrite app_nil_r. auto.
      + destruct (fill n (running - s) keys) as [l' r'] eqn:Ef. injection E as <- <-. exists s, l'. split; [reflexivity|]. split; [assumption|]. right. exists (running - s). split; [lia|assumption]. }
  destruct Hmain as (c & rest & -> & Hc & Hrest). apply in_app_iff in Hin as [Hin|Hin]; [apply repeat_spec in Hin; contradiction|].
  apply in_app_iff. destruct Hk as [E'|Hk]; [injection E' as <- <-; left; auto|]. right.
  destruct Hk' as [E'|Hk']; [injection E' as E' _; congruence|].
  destruct Hrest as [-> | (running' & Hr' & Ef)]; [destruct Hin|]. eapply IH; eauto. intros q0 H0. apply Hu. right. assumption.
Qed.
(** no value is left out in favour of a less likely one *)
Theorem C11_no_starvation : forall d n l fuel k q k' q', 0 < n -> NoDup (map fst d) -> create_instances_list fuel d n = Some l ->
  In (k, q) d -> In (k', q') d -> (q' < q)%Q -> In k' l -> In k l.
Proof.
  intros d n l fuel k q k' q' Hn HN E Hk Hk' Hlt Hin. destruct fuel as [|fuel]; [discriminate|]. cbn [create_instances_list] in E.
  destruct (fill n n (sorted_desc d)) as [i r] eqn:Ef. assert (Hp : forall x, In x d -> In x (sorted_desc d)) by (intros x; apply Permutation_in, sorted_perm).
  destruct (fill_ok n (sorted_desc d) n ltac:(lia) i r Ef) as (_ & _ & _ & H4).
  destruct (Z.ltb_spec 0 r).
  - destruct (create_instances_list fuel d r); [|discriminate]. injection E as <-. apply in_app_iff. left. apply (H4 H). apply (in_map fst (sorted_desc d) (k, q)). apply Hp. assumption.
  - injection E as <-. eapply (fill_prefix n (sorted_desc d) n i r Hn (sorted_sorted d) Ef k q k' q'); auto.
    intros q0 H0. apply (Permutation_in _ (Permutation_sym (sorted_perm d))) in H0.
    assert (q0 = q'); [|subst; reflexivity]. clear -HN Hk' H0. induction d as [|[k1 q1] d IH]; [destruct H0|]. inversion HN as [|? ? H1 HN']; subst.
    destruct Hk' as [E1|Hk'], H0 as [E2|H0]; try congruence; [injection E1 as -> ->; exfalso; apply H1; apply (in_map fst) in H0; exact H0|injection E2 as -> ->; exfalso; apply H1; apply (in_map fst) in Hk'; exact Hk'|auto].
Qed.
Print Assumptions C11_no_starvation.

(** an empty table cannot provide instances: the recursion never ends *)
Theorem C11_empty_table : forall n fuel, 0 < n -> create_instances_list fuel [] n = None.
Proof. intros n fuel Hn. induction fuel as [|fuel IH]; [reflexivity|]. cbn. apply Z.ltb_lt in Hn. rewrite Hn, IH. reflexivity. Qed.
Print Assumptions C11_empty_table.

(** a value of probability zero may be listed *)
Definition d_ex : list (pyobj * Q) := [(PInt 0, 1#4); (PInt 1, 1#4); (PInt 7, 0%Q); (PInt 2, 1#4); (PInt 3, 1#4)].
Lemma d_ex_ok : probability_table d_ex.
Proof. split; [repeat constructor; simpl; intuition discriminate|]. split; [|reflexivity]. intros k q Hin. simpl in Hin. repeat (destruct Hin as [E|Hin]; [injection E as <- <-; lra|]). destruct Hin. Qed.
Theorem C11_zero_probability_may_appear : exists d n l fuel k, probability_table d /\ In (k, 0%Q) d /\ create_instances_list fuel d n = Some l /\ In k l.
Proof. exists d_ex, 10, [PInt 0; PInt 0; PInt 1; PInt 1; PInt 2; PInt 2; PInt 3; PInt 3; PInt 7; PInt 0], 2%nat, (PInt 7). split; [apply d_ex_ok|]. split; [simpl; auto|]. split; [reflexivity|]. simpl; tauto. Qed.
Print Assumptions C11_zero_probability_may_appear.
Example C11_nonvacuous : let d := [(PInt 0, 1#6); (PInt 1, 1#2); (PInt 2, 1#3)] in probability_table d /\
  (forall k q, In (k, q) d -> exists m, 1 <= m /\ (inject_Z 12 * q == inject_Z m)%Q) /\ create_instances_list 1 d 12 = Some (repeat (PInt 1) 6 ++ repeat (PInt 2) 4 ++ repeat (PInt 0) 2).
Proof.
  cbv zeta. split; [split; [repeat constructor; simpl; intuition discriminate|split; [|reflexivity]]|split; [|reflexivity]].
  - intros k q Hin. simpl in Hin. repeat (destruct Hin as [E|Hin]; [injection E as <- <-; lra|]). destruct Hin.
  - intros k q Hin. simpl in Hin. destruct Hin as [E|[E|[E|[]]]]; injection E as <- <-; [exists 2|exists 6|exists 4]; split; try lia; reflexivity.
Qed.

(** ** min_instance_count_for_accuracy *)
Lemma min_fold (qs : list Q) : forall q, (In (fold_left Qmin qs q) (q :: qs) \/ exists q', In q' (q :: qs) /\ (q' == fold_left Qmin qs q)%Q) /\
  (forall q', In q' (q :: qs) -> (fold_left Qmin qs q <= q')%Q).
Proof.
  induction qs as [|x qs IH]; intros q; cbn [fold_left].
  - split; [left; left; reflexivity|]. intros q' [<-|[]]. apply Qle_refl.
  - destruct (IH (Qmin q x)) as (H1 & H2). split.
    + right. assert (G : exists q', In q' (Qmin q x :: qs) /\ (q' == fold_left Qmin qs (Qmin q x))%Q) by (destruct H1 as [H1|H1]; [eexists; split; [exact H1|reflexivity]|exact H1]).
      destruct G as (q' & [<-|Hq'] & E); [|exists q'; split; [right; right; assumption|assumption]].
      destruct (Qlt_le_dec x q) as [Hx|Hx].
      * exists x. split; [right; left; reflexivity|]. rewrite <- E. symmetry. apply Q.min_r. apply Qlt_le_weak. assumption.
      * exists q. split; [left; reflexivity|]. rewrite <- E. symmetry. apply Q.min_l. assumption.
    + intros q' [<-|[<-|Hq']].
      * eapply Qle_trans; [apply H2; left; reflexivity|apply Q.le_min_l].
      * eapply Qle_trans; [apply H2; left; reflexivity|apply Q.le_min_r].
      * apply H2. right. assumption.
Qed.
Lemma nonzero_In d q : In q (filter (fun q => negb (Qeq_bool q 0)) (map snd d)) <-> exists k : pyobj, In (k, q) d /\ ~ (q == 0)%Q.
Proof.
  rewrite filter_In, in_map_iff. split.
  - intros (([k q'] & E & Hin) & Hn). cbn in E. subst q'. exists k. split; [assumption|]. intros E. apply Qeq_bool_iff in E. rewrite E in Hn. discriminate.
  - intros (k & Hin & Hn). split; [exists (k, q); auto|]. destruct (Qeq_bool q 0) eqn:E; [apply Qeq_bool_iff in E; contradiction|reflexivity].
Qed.
Lemma py_round_compat q r : (q == r)%Q -> py_round q = py_round r.
Proof. intros E. unfold py_round. rewrite (Qfloor_comp _ _ E). assert (C : (q - inject_Z (Qfloor r) ?= 1#2)%Q = (r - inject_Z (Qfloor r) ?= 1#2)%Q) by (apply Qcompare_comp; [rewrite E; reflexivity|reflexivity]). rewrite C. reflexivity. Qed.
Lemma py_round_pos q : ((1#2) < q)%Q -> 1 <= py_round q.
Proof. intros H. destruct (py_round_near q) as (_ & H2). assert (G : (inject_Z 0 < inject_Z (py_round q))%Q) by (change (inject_Z 0) with 0%Q; lra). rewrite <- Zlt_Qlt in G. lia. Qed.

(** the count is one over the smallest non-zero probability, rounded; with that many instances no
    value of non-zero probability rounds to nothing; a table of zeros is refused *)
Theorem C11_min_instance_count : forall d, (forall k q, In (k, q) d -> 0 <= q <= 1)%Q ->
  (min_instance_count d = Err ValueError <-> forall k q, In (k, q) d -> (q == 0)%Q) /\
  (forall N, min_instance_count d = Ok N ->
     exists k q, In (k, q) d /\ (0 < q)%Q /\ (forall k' q', In (k', q') d -> 0 < q' -> q <= q')%Q /\
       (inject_Z N - (1#2) <= / q <= inject_Z N + (1#2))%Q /\
       (forall k' q', In (k', q') d -> (0 < q')%Q -> 1 <= py_round (inject_Z N * q'))).
Proof.
  intros d Hd. unfold min_instance_count. pose proof (nonzero_In d) as HF. destruct (filter _ (map snd d)) as [|q qs] eqn:E.
  - split; [|discriminate]. split; [|reflexivity]. intros _ k q Hin. destruct (Qeq_dec q 0) as [H|H]; [assumption|]. destruct (proj2 (HF q)). exists k. auto.
  - split.
    { split; [discriminate|]. intros H. exfalso. destruct (proj1 (HF q) (or_introl eq_refl)) as (k & Hin & Hn). apply Hn. eapply H. eassumption. }
    intros N EN. injection EN as <-. destruct (min_fold qs q) as (H1 & H2).
    assert (G : exists q', In q' (q :: qs) /\ (q' == fold_left Qmin qs q)%Q) by (destruct H1 as [H1|H1]; [eexists; split; [exact H1|reflexivity]|exact H1]).
    destruct G as (m & Hm & Em). set (f := fold_left Qmin qs q) in *. destruct (proj1 (HF m) Hm) as (k & Hin & Hn).
    destruct (Hd _ _ Hin) as (Hm0 & Hm1). assert (Hmp : (0 < m)%Q) by (destruct (Qlt_le_dec 0 m); [assumption|]; exfalso; apply Hn; apply Qle_antisym; assumption).
    assert (HN : (inject_Z (py_round (/ f)) - (1#2) <= / m <= inject_Z (py_round (/ f)) + (1#2))%Q) by (rewrite Em; apply py_round_near).
    assert (Hmin : forall k' q', In (k', q') d -> (0 < q')%Q -> (m <= q')%Q).
    { intros k' q' Hi Hp. rewrite Em. apply H2. apply HF. exists k'. split; [assumption|]. intros E0. rewrite E0 in Hp. apply (Qlt_irrefl _ Hp). }
    exists k, m. split; [assumption|]. split; [assumption|]. split; [exact Hmin|]. split; [exact HN|].
    intros k' q' Hi Hp. apply py_round_pos. specialize (Hmin _ _ Hi Hp).
    assert (Him : (1 <= / m)%Q) by (apply Qmult_le_r with m; [assumption|]; rewrite Qmult_1_l, (Qmult_comm (/ m)), Qmult_inv_r by assumption; assumption).
    assert (HN1 : ((1#2) <= inject_Z (py_round (/ f)))%Q) by lra.
    assert (HN2 : 1 <= py_round (/ f)).
    { assert (C : (inject_Z 0 < inject_Z (py_round (/ f)))%Q) by (change (inject_Z 0) with 0%Q; lra). rewrite <- Zlt_Qlt in C. lia. }
    assert (HN3 : (1 <= inject_Z (py_round (/ f)))%Q) by (change 1%Q with (inject_Z 1); rewrite <- Zle_Qle; assumption).
    assert (Hmm : (/ m * m == 1)%Q) by (rewrite Qmult_comm; apply Qmult_inv_r; assumption).
    set (N := inject_Z (py_round (/ f))) in *. set (i := (/ m)%Q) in *. clearbody N i.
    apply Qlt_le_trans with (N * m)%Q; [|rewrite (Qmult_comm N m), (Qmult_comm N q'); apply Qmult_le_r; [lra|assumption]].
    (* N >= 1/m - 1/2 and N >= 1 *)
    assert (A1 : ((i - (1#2)) * m <= N * m)%Q) by (apply Qmult_le_r; [assumption|lra]).
    assert (A2 : ((i - (1#2)) * m == 1 - (1#2) * m)%Q) by (rewrite <- Hmm; ring).
    assert (A3 : (1 * m <= N * m)%Q) by (apply Qmult_le_r; [assumption|assumption]).
    lra.
Qed.
Print Assumptions C11_min_instance_count.

(** when the smallest probability is 1/N and all others are multiples of it, the count is N and the
    N instances have exactly the probabilities as frequencies ... *)
Theorem C11_min_instance_count_faithful : forall d N, probability_table d -> 0 < N ->
  (forall k q, In (k, q) d -> exists m, 1 <= m /\ (q == inject_Z m / inject_Z N)%Q) -> (exists k q, In (k, q) d /\ (q == 1 / inject_Z N)%Q) ->
  min_instance_count d = Ok N /\
  exists fuel l, create_instances_list fuel d N = Some l /\ Z.of_nat (length l) = N /\
    forall k q, In (k, q) d -> (inject_Z (occurrences k l) == inject_Z N * q)%Q.
Proof.
  intros d N Hd HN Hm (k1 & q1 & Hin1 & E1).
  assert (HNq : (0 < inject_Z N)%Q) by (change 0%Q with (inject_Z 0); rewrite <- Zlt_Qlt; assumption).
  assert (HNn : ~ (inject_Z N == 0)%Q) by (intros E; rewrite E in HNq; apply (Qlt_irrefl _ HNq)).
  assert (Hi : (0 < / inject_Z N)%Q) by (apply Qinv_lt_0_compat; assumption).
  split.
  - pose proof (nonzero_In d) as HF. unfold min_instance_count. destruct (filter _ (map snd d)) as [|q qs] eqn:E.
    + exfalso. destruct (proj2 (HF q1)). exists k1. split; [assumption|]. rewrite E1. unfold Qdiv. rewrite Qmult_1_l. intros E0. rewrite E0 in Hi. apply (Qlt_irrefl _ Hi).
    + f_equal. destruct (min_fold qs q) as (H1 & H2).
      assert (G : exists q', In q' (q :: qs) /\ (q' == fold_left Qmin qs q)%Q) by (destruct H1 as [H1|H1]; [eexists; split; [exact H1|reflexivity]|exact H1]).
      destruct G as (m & Hmin & Em). apply py_round_int. rewrite <- Em.
      assert (Hle : (m <= 1 / inject_Z N)%Q).
      { rewrite Em, <- E1. apply H2. apply HF. exists k1. split; [assumption|]. rewrite E1. unfold Qdiv. rewrite Qmult_1_l. intros E0. rewrite E0 in Hi. apply (Qlt_irrefl _ Hi). }
      destruct (proj1 (HF m) Hmin) as (k & Hin & _). destruct (Hm _ _ Hin) as (c & Hc & Ec).
      assert (Hge : (1 / inject_Z N <= m)%Q).
      { rewrite Ec. unfold Qdiv. apply Qmult_le_r; [assumption|]. change 1%Q with (inject_Z 1). rewrite <- Zle_Qle. assumption. }
      rewrite (Qle_antisym _ _ Hle Hge). field. assumption.
  - destruct (C11_exact_length d N) as (fuel & l & El & Hl & _); [destruct d; [destruct Hin1|discriminate]|]. exists fuel, l. split; [assumption|]. split; [rewrite Hl; lia|].
    apply (C11_faithful d N l fuel Hd); [|assumption]. intros k q Hin. destruct (Hm _ _ Hin) as (m & Hm1 & E). exists m. split; [assumption|]. rewrite E. field. assumption.
Qed.
Print Assumptions C11_min_instance_count_faithful.
(** ... but in general it is not enough for accuracy, whatever the name says *)
Theorem C11_min_instance_count_inaccurate_refuted : exists d N l, probability_table d /\ min_instance_count d = Ok N /\ create_instances_list 2 d N = Some l /\
  exists k q, In (k, q) d /\ ((inject_Z (occurrences k l) / inject_Z N) == q + (1#10))%Q.
Proof.
  exists [(PInt 0, 2#5); (PInt 1, 3#5)]%Q, 2, [PInt 1; PInt 0]. split; [|split; [reflexivity|split; [reflexivity|]]].
  - split; [repeat constructor; simpl; intuition discriminate|]. split; [|reflexivity]. intros k q [E|[E|[]]]; injection E as _ <-; discriminate.
  - exists (PInt 0), (2#5)%Q. split; [left; reflexivity|reflexivity].
Qed.
Print Assumptions C11_min_instance_count_inaccurate_refuted.
Example C11_min_instance_count_nonvacuous : probability_table [(PInt 0, 1#4); (PInt 1, 3#4)]%Q /\ min_instance_count [(PInt 0, 1#4); (PInt 1, 3#4)]%Q = Ok 4.
Proof. split; [|reflexivity]. split; [repeat constructor; simpl; intuition discriminate|]. split; [|reflexivity]. intros k q [E|[E|[]]]; injection E as _ <-; discriminate. Qed.
