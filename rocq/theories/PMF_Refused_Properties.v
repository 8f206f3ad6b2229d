(** C09, C10: the requests that the probability tables refuse. *)
From Coq Require Import Reals Lra.
From Verif Require Import Base Key_Model Key_Spec Key_Proofs PMF_Model PMF_Spec Prob_Spec Info_Spec Table_Spec
  Prob_Proofs PMF_Proofs PMF_Cond_Proofs Info_Proofs PMF_Data_Proofs Table_Proofs PMF_Properties.
Open Scope R_scope.

(** a joint variable of nothing but trivial variables holds no variable at all and has no distribution *)
Theorem C09_no_variables : forall ns, exists v, joint_variables (map OmegaVar ns) = Ok v /\ new_pmf v = Err IndexError.
Proof.
  intros ns. exists (Joint []). split; [|reflexivity]. unfold joint_variables.
  assert (E : flatten_variables (map OmegaVar ns) = []) by (induction ns as [|n ns IH]; [reflexivity|exact IH]).
  rewrite E. reflexivity.
Qed.
Print Assumptions C09_no_variables.

Lemma index_of_some x l : In x l -> exists i, index_of x l = Some i /\ (i < length l)%nat.
Proof.
  induction l as [|y l IH]; [contradiction|]. intros H. cbn [index_of]. destruct (Z.eqb_spec x y) as [-> | N].
  - exists O. split; [reflexivity|]. simpl. lia.
  - destruct H as [E|H]; [congruence|]. destruct (IH H) as (i & E & L). exists (Datatypes.S i). rewrite E. split; [reflexivity|]. simpl. lia.
Qed.
Lemma index_of_none x l : ~ In x l -> index_of x l = None.
Proof.
  induction l as [|y l IH]; [reflexivity|]. intros H. cbn [index_of]. destruct (Z.eqb_spec x y) as [-> | N]; [exfalso; apply H; left; reflexivity|].
  rewrite IH by (intros C; apply H; right; exact C). reflexivity.
Qed.
Definition picks (ids : list Z) (k : pyobj) (v : Z) : res pyobj := i <- joint_index ids v ;; key_at k i.
Lemma picks_ok ids l v : length l = length ids -> In v ids -> exists x, picks ids (PTup l) v = Ok x.
Proof.
  intros L H. destruct (index_of_some v ids H) as (i & E & Li). unfold picks, joint_index. rewrite E. cbn [of_option bind key_at].
  destruct (nth_error l i) as [x|] eqn:En; [exists x; reflexivity|]. apply nth_error_None in En. lia.
Qed.
Lemma picks_all ids l vs : length l = length ids -> incl vs ids -> exists xs, mapM (picks ids (PTup l)) vs = Ok xs.
Proof.
  intros L. induction vs as [|v vs IH]; intros H; [exists []; reflexivity|].
  destruct (picks_ok ids l v L) as (x & E); [apply H; left; reflexivity|]. destruct IH as (xs & Es); [intros y Hy; apply H; right; exact Hy|].
  exists (x :: xs). cbn [mapM]. rewrite E. cbn [bind]. rewrite Es. reflexivity.
Qed.
Lemma picks_unknown ids l vs : length l = length ids -> ~ incl vs ids -> mapM (picks ids (PTup l)) vs = Err KeyError.
Proof.
  intros L. induction vs as [|v vs IH]; intros H; [exfalso; apply H; intros y []|]. cbn [mapM].
  destruct (in_dec Z.eq_dec v ids) as [Hv|Hv].
  - destruct (picks_ok ids l v L Hv) as (x & E). rewrite E. cbn [bind]. rewrite IH; [reflexivity|]. intros C. apply H. intros y [<- |Hy]; [exact Hv|apply C, Hy].
  - unfold picks, joint_index. rewrite (index_of_none v ids Hv). reflexivity.
Qed.
Lemma condition_on_eq P cond : variableIDs cond <> [] -> condition_on P cond =
  foldM (fun C kv => ck <- mapM (picks (variableIDs P) (fst kv)) (variableIDs cond) ;;
      nk <- mapM (picks (variableIDs P) (fst kv)) (filter (fun v => negb (existsb (Z.eqb v) (variableIDs cond))) (variableIDs P)) ;;
      Ok (store_conditional C (unwrap ck) (PTup nk) (snd kv) (pmf_p cond [unwrap ck]))) (probabilities P) [].
Proof. intros N. unfold condition_on. destruct (variableIDs cond); [congruence|]. reflexivity. Qed.

(** A table of two or more variables can be conditioned on any table of one or more of its variables and on
    nothing else: a variable it does not have raises KeyError; a table without variables raises ValueError;
    a table of a single variable cannot be conditioned at all. *)
Theorem C10_conditioning_refused : forall (A : Type) (S : space A) ids T P cond, is_probability S -> is_table S ids T P ->
  (variableIDs cond = [] -> condition_on P cond = Err ValueError) /\
  ((2 <= length ids)%nat -> (condition_on P cond = Err KeyError <-> ~ incl (variableIDs cond) ids) /\
                            ((exists C, condition_on P cond = Ok C) <-> variableIDs cond <> [] /\ incl (variableIDs cond) ids)) /\
  (forall i c cs, ids = [i] -> variableIDs cond = c :: cs ->
     (c = i -> condition_on P cond = Err TypeError) /\ (c <> i -> condition_on P cond = Err KeyError)).
Proof.
  intros A S ids T P cond HS HT. destruct HT as [Hi Hl Hd (Hp & Hk)].
  assert (E0 : variableIDs cond = [] -> condition_on P cond = Err ValueError) by (intros E; unfold condition_on; rewrite E; reflexivity).
  assert (HP : exists k r rest, probabilities P = (k, r) :: rest).
  { destruct (probabilities P) as [|[k r] rest] eqn:EP; [|eauto]. exfalso. pose proof (distribution_total S (proj1 HS) _ _ HS Hd) as H. simpl in H. lra. }
  assert (Hempty : variableIDs cond <> [] -> ~ (variableIDs cond = [])) by auto.
  split; [exact E0|]. split.
  - intros L2. assert (KT : forall k r, In (k, r) (probabilities P) -> exists l, k = PTup l /\ length l = length ids).
    { intros k r H. pose proof (Hp k r H) as Ek. pose proof (Hk k r H) as Lk. rewrite Ek. unfold as_key.
      destruct (leaves k) as [|x [|y l]]; [simpl in Lk; lia|simpl in Lk; lia|]. eexists. split; [reflexivity|]. rewrite map_length. exact Lk. }
    assert (BAD : ~ incl (variableIDs cond) ids -> condition_on P cond = Err KeyError).
    { intros N. rewrite condition_on_eq by (intros E; apply N; rewrite E; intros y []). rewrite Hi. destruct HP as (k & r & rest & EP). rewrite EP.
      destruct (KT k r) as (l & -> & Ll); [rewrite EP; left; reflexivity|]. cbn [foldM fst]. rewrite (picks_unknown ids l _ Ll N). reflexivity. }
    assert (GOOD : variableIDs cond <> [] -> incl (variableIDs cond) ids -> exists C, condition_on P cond = Ok C).
    { intros N I. rewrite condition_on_eq by exact N. rewrite Hi. generalize (@nil (pyobj * pmf)). clear HP Hd Hp Hk. revert KT. induction (probabilities P) as [|[k r] rest IH]; intros KT C0; [exists C0; reflexivity|].
      destruct (KT k r) as (l & -> & Ll); [left; reflexivity|]. cbn [foldM fst snd].
      destruct (picks_all ids l (variableIDs cond) Ll I) as (ck & ->). cbn [bind].
      destruct (picks_all ids l (filter (fun v => negb (existsb (Z.eqb v) (variableIDs cond))) ids) Ll) as (nk & ->); [intros y Hy; apply filter_In in Hy; apply Hy|]. cbn [bind].
      apply IH. intros k' r' H. apply (KT k' r'). right. exact H. }
    assert (INC : forall l : list Z, incl l ids \/ ~ incl l ids).
    { intros l. destruct (Forall_dec (fun x => In x ids) (fun x => in_dec Z.eq_dec x ids) l) as [F|F]; rewrite Forall_forall in F; [left|right]; exact F. }
    assert (ND : variableIDs cond = [] \/ variableIDs cond <> []) by (destruct (variableIDs cond); [left; reflexivity|right; discriminate]).
    split; split.
    + intros H I. destruct ND as [N|N]; [rewrite (E0 N) in H; discriminate H|]. destruct (GOOD N I) as (C & EC). rewrite EC in H. discriminate H.
    + exact BAD.
    + intros (C & EC). destruct ND as [N|N]; [rewrite (E0 N) in EC; discriminate EC|]. split; [exact N|]. destruct (INC (variableIDs cond)) as [I|I]; [exact I|]. rewrite (BAD I) in EC. discriminate EC.
    + intros [N I]. exact (GOOD N I).
  - intros i c cs -> Ec. destruct HP as (k & r & rest & EP).
    assert (Ek : exists x, k = PInt x).
    { pose proof (Hp k r) as Ek. pose proof (Hk k r) as Lk. rewrite EP in Ek, Lk. specialize (Ek (or_introl eq_refl)). specialize (Lk (or_introl eq_refl)). rewrite Ek.
      destruct (leaves k) as [|x [|y l]]; try (simpl in Lk; lia). exists x. reflexivity. }
    destruct Ek as (x & ->). rewrite condition_on_eq by (rewrite Ec; discriminate). rewrite Hi, EP, Ec. cbn [foldM fst mapM].
    assert (Q : picks [i] (PInt x) c = Err (if Z.eqb c i then TypeError else KeyError)) by (unfold picks, joint_index; cbn [index_of]; destruct (Z.eqb c i); reflexivity).
    rewrite Q. destruct (Z.eqb_spec c i) as [E|E]; (split; intros H; [try contradiction|try contradiction]); reflexivity.
Qed.
Print Assumptions C10_conditioning_refused.
(** a table of three columns of data, conditioned on one of them, on a column it does not have, and on nothing *)
Example C10_refused_nonvacuous : exists P Q R, new_pmf (Joint [colx; coly; colz]) = Ok P /\ new_pmf (Simple colz) = Ok Q /\ new_pmf (Simple {| vid := 99; insts := insts colz; array := false; lazy := false |}) = Ok R /\
  (exists C, condition_on P Q = Ok C) /\ condition_on P R = Err KeyError /\ condition_on P empty_pmf = Err ValueError /\ condition_on Q P = Err KeyError /\ condition_on Q Q = Err TypeError.
Proof.
  destruct (C10_data_tables (Joint [colx; coly; colz]) 4) as (P & EP & HP); [split; [discriminate|repeat constructor]|lia|discriminate|].
  destruct (C10_data_tables (Simple colz) 4) as (Q & EQ & HQ); [reflexivity|lia|discriminate|].
  destruct (C10_data_tables (Simple {| vid := 99; insts := insts colz; array := false; lazy := false |}) 4) as (R & ER & HR); [reflexivity|lia|discriminate|].
  exists P, Q, R. split; [exact EP|]. split; [exact EQ|]. split; [exact ER|].
  assert (HS : is_probability (uniform (seq 0 4))) by (apply uniform_probability; discriminate).
  pose proof (table_ids _ _ _ _ HP) as IP. pose proof (table_ids _ _ _ _ HQ) as IQ. pose proof (table_ids _ _ _ _ HR) as IR.
  split; [|split; [|split; [|split]]].
  - destruct (C10_conditioning_refused _ _ _ _ P Q HS HP) as (_ & H & _). apply H; [vm_compute; lia|]. rewrite IQ. split; [discriminate|]. intros y Hy. vm_compute in Hy |- *. tauto.
  - destruct (C10_conditioning_refused _ _ _ _ P R HS HP) as (_ & H & _). apply H; [vm_compute; lia|]. rewrite IR. intros I. specialize (I 99%Z (or_introl eq_refl)). vm_compute in I. intuition discriminate.
  - destruct (C10_conditioning_refused _ _ _ _ P empty_pmf HS HP) as (H & _). exact (H eq_refl).
  - destruct (C10_conditioning_refused _ _ _ _ Q P HS HQ) as (_ & _ & H). destruct (H _ _ _ eq_refl IP) as [_ H']. apply H'. vm_compute. discriminate.
  - destruct (C10_conditioning_refused _ _ _ _ Q Q HS HQ) as (_ & _ & H). destruct (H _ _ _ eq_refl IQ) as [H' _]. apply H'. reflexivity.
Qed.
