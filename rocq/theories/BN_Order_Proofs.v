(** The sampling order. *)
From Coq Require Import Reals Relations.
From Verif Require Import Base BN_Model Prob_Spec BN_Spec.
Open Scope nat_scope.

Lemma find_node_In ns v n : find_node ns v = Some n -> In n ns /\ nname n = v.
Proof. intros H. apply find_some in H as (H & E). apply Nat.eqb_eq in E. auto. Qed.
Lemma find_node_known ns v : In v (map nname ns) -> exists n, find_node ns v = Some n.
Proof.
  intros H. destruct (find_node ns v) as [n|] eqn:E; [eauto|]. apply in_map_iff in H as (n & <- & H).
  unfold find_node in E. eapply find_none in E; [|exact H]. cbn beta in E. rewrite Nat.eqb_refl in E. discriminate.
Qed.
Lemma find_node_self ns n : NoDup (map nname ns) -> In n ns -> find_node ns (nname n) = Some n.
Proof.
  induction ns as [|m ns IH]; intros HN Hin; [destruct Hin|]; destruct Hin as [-> | Hin]; unfold find_node in *; cbn [find].
  - rewrite Nat.eqb_refl. reflexivity.
  - inversion HN as [|? ? H1 H2]; subst. destruct (Nat.eqb_spec (nname n) (nname m)) as [E|E]; [|auto].
    exfalso. apply H1. rewrite <- E. apply in_map. assumption.
Qed.
Lemma find_node_unknown ns v : find_node ns v = None -> ~ In v (map nname ns).
Proof. intros E H. apply find_node_known in H as (n & H). congruence. Qed.
Lemma parent_iff ns v n : NoDup (map nname ns) -> find_node ns v = Some n -> forall p, parent_of ns p v <-> In p (nparents n).
Proof.
  intros HN Hf p. destruct (find_node_In _ _ _ Hf) as (Hin & En). split.
  - intros (m & Hm & E & Hp). assert (m = n); [|subst; assumption]. rewrite <- E, (find_node_self ns m HN Hm) in Hf. congruence.
  - intros Hp. exists n. auto.
Qed.
Lemma parent_dec ns p v : NoDup (map nname ns) -> {parent_of ns p v} + {~ parent_of ns p v}.
Proof.
  intros HN. destruct (find_node ns v) as [n|] eqn:E.
  - destruct (in_dec Nat.eq_dec p (nparents n)) as [H|H]; [left|right]; rewrite (parent_iff _ _ _ HN E); assumption.
  - right. intros (m & Hm & <- & _). apply find_node_unknown in E. apply E. apply in_map. assumption.
Qed.

(** ** A finite acyclic relation has a minimal element *)
Section Minimal.
  Context (P : nat -> nat -> Prop) (Pdec : forall p v, {P p v} + {~ P p v}).
  (* chains, most recent ancestor first *)
  Inductive chain (rem : list nat) : list nat -> Prop :=
  | chain_one v : In v rem -> chain rem [v]
  | chain_step u v l : In u rem -> P u v -> chain rem (v :: l) -> chain rem (u :: v :: l).
  Lemma chain_incl rem l : chain rem l -> incl l rem.
  Proof. induction 1 as [v H|u v l H Hp Hc IH]; intros x Hx; [destruct Hx as [-> |[]]; assumption|destruct Hx as [-> |Hx]; auto]. Qed.
  Lemma chain_related rem : forall l v, chain rem (v :: l) -> forall w, In w l -> clos_trans nat P v w.
  Proof.
    induction l as [|u l IH]; intros v Hc w Hw; [destruct Hw|]. inversion Hc as [|? ? ? H1 H2 H3]; subst.
    destruct Hw as [-> |Hw]; [apply t_step; assumption|]. eapply t_trans; [apply t_step; eassumption|]. apply IH; assumption.
  Qed.
  Lemma chain_nodup rem : (forall v, ~ clos_trans nat P v v) -> forall l, chain rem l -> NoDup l.
  Proof.
    intros Hac l. induction l as [|v l IH]; intros Hc; [constructor|]. constructor.
    - intros Hin. apply (Hac v). eapply chain_related; eassumption.
    - inversion Hc; subst; [constructor|apply IH; assumption].
  Qed.
  Lemma chain_extend rem : (forall v, In v rem -> exists p, In p rem /\ P p v) -> rem <> [] -> forall k, exists l, chain rem l /\ length l = S k.
  Proof.
    intros H Hne. induction k as [|k (l & Hc & Hl)].
    - destruct rem as [|v r]; [congruence|]. exists [v]. split; [constructor; left; reflexivity|reflexivity].
    - destruct l as [|v l]; [discriminate|]. destruct (H v) as (p & Hp & HP); [apply (chain_incl _ _ Hc); left; reflexivity|].
      exists (p :: v :: l). split; [constructor; assumption|]. cbn [length] in *. lia.
  Qed.
  Lemma minimal_exists rem : (forall v, ~ clos_trans nat P v v) -> rem <> [] -> exists v, In v rem /\ forall p, P p v -> ~ In p rem.
  Proof.
    intros Hac Hne.
    destruct (Exists_dec (fun v => Forall (fun p => ~ P p v) rem) rem) as [H|H].
    { intros v. apply Forall_dec. intros p. destruct (Pdec p v); [right; tauto|left; assumption]. }
    - apply Exists_exists in H as (v & Hv & HF). exists v. split; [assumption|]. intros p Hp Hin. rewrite Forall_forall in HF. apply (HF p); assumption.
    - exfalso. destruct (chain_extend rem) with (k := length rem) as (l & Hc & Hl); [|assumption|].
      + intros v Hv. destruct (Exists_dec (fun p => P p v) rem (fun p => Pdec p v)) as [E|E].
        * apply Exists_exists in E as (p & Hp & HP). eauto.
        * exfalso. apply H. apply Exists_exists. exists v. split; [assumption|]. apply Forall_forall. intros p Hp HP. apply E. apply Exists_exists. eauto.
      + pose proof (chain_nodup rem Hac l Hc) as HN. pose proof (NoDup_incl_length HN (chain_incl _ _ Hc)). lia.
  Qed.
End Minimal.

(** ** The loop *)
Section Order.
  Context (ns : list node) (Hwf : well_formed ns).
  Let HN := proj1 Hwf.

  Definition ordered (ord : list nat) : Prop :=
    NoDup ord /\ incl ord (map nname ns) /\ forall l1 v l2, ord = l1 ++ v :: l2 -> forall p, parent_of ns p v -> In p l1.

  Lemma ordered_nil : ordered [].
  Proof. split; [constructor|]. split; [intros x []|]. intros l1 v l2 E. destruct l1; discriminate. Qed.
  Lemma ordered_snoc ord v : ordered ord -> ~ In v ord -> In v (map nname ns) -> (forall p, parent_of ns p v -> In p ord) -> ordered (ord ++ [v]).
  Proof.
    intros (H1 & H2 & H3) Hv Hk Hp. split; [|split].
    - rewrite <- (rev_involutive (ord ++ [v])). apply NoDup_rev. rewrite rev_app_distr. simpl. constructor; [rewrite <- in_rev; assumption|apply NoDup_rev; assumption].
    - intros x Hx. apply in_app_or in Hx as [Hx|[-> |[]]]; auto.
    - intros l1 u l2 E p Hpu. destruct l2 as [|w l2] using rev_ind.
      + apply app_inj_tail in E as (<- & <-). auto.
      + rewrite app_comm_cons, app_assoc in E. apply app_inj_tail in E as (E & _). eapply H3; eassumption.
  Qed.
  Lemma ordered_before ord : ordered ord -> forall v p, In v ord -> parent_of ns p v -> In p ord.
  Proof. intros (_ & _ & H3) v p Hv Hp. apply in_split in Hv as (l1 & l2 & ->). apply in_or_app. left. eapply H3; [reflexivity|assumption]. Qed.

  Lemma pass_ok : forall vs ord, NoDup vs -> incl vs (map nname ns) -> (forall v, In v vs -> ~ In v ord) -> ordered ord ->
    exists ord', order_pass ns vs ord = Ok ord' /\ ordered ord' /\ incl ord ord' /\ (forall v, In v ord' -> In v ord \/ In v vs) /\
      (forall v, In v vs -> (forall p, parent_of ns p v -> In p ord) -> In v ord').
  Proof.
    induction vs as [|v vs IH]; intros ord HNv Hin Hdis Ho; unfold order_pass; cbn [foldM].
    - exists ord. split; [reflexivity|]. split; [assumption|]. split; [apply incl_refl|]. split; [auto|]. intros v [].
    - inversion HNv as [|? ? Hv HNv']; subst. destruct (find_node_known ns v) as (n & Ef); [apply Hin; left; reflexivity|].
      unfold get_node. rewrite Ef. cbn [of_option bind].
      assert (Ec : (Nat.eqb (length (nparents n)) 0 || forallb (fun p => mem p ord) (nparents n))%bool = true <-> forall p, parent_of ns p v -> In p ord).
      { rewrite orb_true_iff, forallb_forall. split.
        - intros [H|H] p Hp; apply (parent_iff ns v n HN Ef) in Hp; [apply Nat.eqb_eq in H; destruct (nparents n); [destruct Hp|discriminate]|apply mem_In; auto].
        - intros H. right. intros p Hp. apply mem_In. apply H. apply (parent_iff ns v n HN Ef). assumption. }
      destruct (_ || _)%bool eqn:E.
      + assert (Hpar := proj1 Ec eq_refl). destruct (IH (ord ++ [v])) as (ord' & E' & Ho' & Hi' & Hb' & Hc'); auto.
        * intros x Hx. apply Hin. right; assumption.
        * intros x Hx Hx'. apply in_app_or in Hx' as [Hx'|[-> |[]]]; [apply (Hdis x); [right|]; assumption|contradiction].
        * apply ordered_snoc; auto. { apply Hdis. left; reflexivity. } { apply Hin. left; reflexivity. }
        * exists ord'. split; [exact E'|]. split; [assumption|]. split; [intros x Hx; apply Hi'; apply in_or_app; auto|]. split.
          -- intros x Hx. apply Hb' in Hx as [Hx|Hx]; [|right; right; assumption]. apply in_app_or in Hx as [Hx|[-> |[]]]; [left; assumption|right; left; reflexivity].
          -- intros x [-> |Hx] Hp; [apply Hi'; apply in_or_app; right; left; reflexivity|]. apply Hc'; [assumption|]. intros p Hpp. apply in_or_app; left; auto.
      + destruct (IH ord) as (ord' & E' & Ho' & Hi' & Hb' & Hc'); auto.
        * intros x Hx. apply Hin. right; assumption.
        * intros x Hx. apply Hdis. right; assumption.
        * exists ord'. split; [exact E'|]. split; [assumption|]. split; [assumption|]. split.
          -- intros x Hx. apply Hb' in Hx as [Hx|Hx]; [left|right; right]; assumption.
          -- intros x [-> |Hx] Hp; [exfalso; assert (false = true) by (apply Ec; assumption); discriminate|auto].
  Qed.

  Definition remaining (rem ord : list nat) : Prop := NoDup rem /\ forall v, In v rem <-> In v (map nname ns) /\ ~ In v ord.
  Lemma remaining_step rem ord ord' : remaining rem ord -> incl ord ord' -> remaining (filter (fun v => negb (mem v ord')) rem) ord'.
  Proof.
    intros (H1 & H2) Hi. split; [apply NoDup_filter; assumption|]. intros v. rewrite filter_In, H2, negb_true_iff, mem_false. split; [tauto|].
    intros (Hk & Hn). repeat split; auto.
  Qed.
  Lemma filter_length_le {A} (f : A -> bool) l : length (filter f l) <= length l.
  Proof. induction l as [|y l IH]; cbn [filter]; [lia|]. destruct (f y); cbn [length]; lia. Qed.
  Lemma filter_shorter {A} (f : A -> bool) l x : In x l -> f x = false -> length (filter f l) < length l.
  Proof.
    induction l as [|y l IH]; intros Hin Hf; [destruct Hin|]; destruct Hin as [-> |Hin]; cbn [filter length].
    - rewrite Hf. apply Nat.lt_succ_r, filter_length_le.
    - destruct (f y); cbn [length]; specialize (IH Hin Hf); lia.
  Qed.

  Lemma loop_ok : acyclic ns -> forall fuel rem ord, remaining rem ord -> ordered ord -> length rem <= fuel ->
    exists ord', order_loop fuel ns rem ord = Ok ord' /\ topological ns ord'.
  Proof.
    intros Hac. induction fuel as [|fuel IH]; intros rem ord Hr Ho Hl; destruct rem as [|r rem']; cbn [order_loop].
    1, 3: exists ord; split; [reflexivity|]; destruct Ho as (H1 & H2 & H3); split; [|assumption]; apply NoDup_Permutation; [assumption|assumption|];
      intros v; split; [apply H2|]; intros Hv; destruct (in_dec Nat.eq_dec v ord) as [H|H]; [assumption|]; exfalso; apply (proj2 (proj2 Hr v)); split; assumption.
    - cbn [length] in Hl. lia.
    - set (rem := r :: rem') in *.
      destruct (pass_ok rem ord) as (ord' & E & Ho' & Hi & Hb & Hc); [apply Hr|intros v Hv; apply Hr; assumption|intros v Hv; apply Hr; assumption|assumption|].
      rewrite E. cbn [bind]. apply IH; [eapply remaining_step; eassumption|assumption|].
      destruct (minimal_exists (parent_of ns) (fun p v => parent_dec ns p v HN) rem Hac) as (v & Hv & Hmin); [discriminate|].
      assert (Hv' : In v ord').
      { apply Hc; [assumption|]. intros p Hp. destruct (in_dec Nat.eq_dec p ord) as [H|H]; [assumption|]. exfalso. apply (Hmin p Hp). apply Hr. split; [apply (proj2 Hwf) in Hp; assumption|assumption]. }
      pose proof (filter_shorter (fun u => negb (mem u ord')) rem v Hv) as Hs.
      assert (length (filter (fun u => negb (mem u ord')) rem) < length rem); [|lia]. apply Hs. apply negb_false_iff. apply mem_In. assumption.
  Qed.
  (* more fuel does not change a result *)
  Lemma loop_mono : forall fuel rem ord o, order_loop fuel ns rem ord = Ok o -> forall fuel', fuel <= fuel' -> order_loop fuel' ns rem ord = Ok o.
  Proof.
    induction fuel as [|fuel IH]; intros [|r rem] ord o E fuel' Hle; destruct fuel' as [|fuel']; cbn [order_loop] in *; try assumption; try lia; try discriminate.
    destruct (order_pass ns (r :: rem) ord) as [o'|e]; cbn [bind] in *; [|assumption]. apply IH; [assumption|lia].
  Qed.

  (** an ordered list never contains a variable that is its own ancestor *)
  Lemma ordered_acyclic ord : ordered ord -> forall l1 v l2, ord = l1 ++ v :: l2 -> forall p, clos_trans nat (parent_of ns) p v -> In p l1.
  Proof.
    intros Ho l1 v l2 E p Hp. apply clos_trans_tn1_iff in Hp. revert l1 l2 E. induction Hp as [w Hw|w z Hwz Hpw IH]; intros l1 l2 E.
    - destruct Ho as (_ & _ & H3). eapply H3; eassumption.
    - destruct Ho as (H1 & H2 & H3). assert (Hin : In w l1) by (eapply H3; eassumption). apply in_split in Hin as (a & c & ->).
      apply in_or_app. left. apply (IH a (c ++ z :: l2)). rewrite E, <- app_assoc. reflexivity.
  Qed.
  Lemma no_self ord v : ordered ord -> In v ord -> ~ clos_trans nat (parent_of ns) v v.
  Proof.
    intros Ho Hv Hc. apply in_split in Hv as (l1 & l2 & E). assert (Hin := ordered_acyclic ord Ho l1 v l2 E v Hc).
    destruct Ho as (H1 & _). rewrite E in H1. apply NoDup_remove_2 in H1. apply H1. apply in_or_app; left; assumption.
  Qed.
  Lemma ancestor_known p v : clos_trans nat (parent_of ns) p v -> In v (map nname ns).
  Proof. intros H. apply clos_trans_tn1_iff in H. destruct H as [w (n & Hn & <- & _)|w z (n & Hn & <- & _) _]; apply in_map; assumption. Qed.
  Lemma loop_diverges v : clos_trans nat (parent_of ns) v v -> forall fuel rem ord, remaining rem ord -> ordered ord -> order_loop fuel ns rem ord = Err OutOfFuel.
  Proof.
    intros Hv. induction fuel as [|fuel IH]; intros rem ord Hr Ho.
    - destruct rem as [|r rem']; [|reflexivity]. exfalso. apply (proj2 (proj2 Hr v)). split; [eapply ancestor_known; eassumption|]. intros Hin. eapply no_self; eassumption.
    - destruct rem as [|r rem'].
      + exfalso. apply (proj2 (proj2 Hr v)). split; [eapply ancestor_known; eassumption|]. intros Hin. eapply no_self; eassumption.
      + cbn [order_loop]. set (rem := r :: rem') in *.
        destruct (pass_ok rem ord) as (ord' & E & Ho' & Hi & _); [apply Hr|intros u Hu; apply Hr; assumption|intros u Hu; apply Hr; assumption|assumption|].
        rewrite E. cbn [bind]. apply IH; [eapply remaining_step; eassumption|assumption].
  Qed.
  Lemma remaining_start : remaining (sort_nat (map nname ns)) [].
  Proof. split; [apply (Permutation_NoDup (sort_perm _)); assumption|]. intros v. rewrite sort_in. simpl. tauto. Qed.
  Lemma detect_ok : acyclic ns -> exists ord, (forall fuel, length ns <= fuel -> order_loop fuel ns (sort_nat (map nname ns)) [] = Ok ord) /\ topological ns ord.
  Proof.
    intros Hac. destruct (loop_ok Hac (length ns) (sort_nat (map nname ns)) []) as (ord & E & Ht); [apply remaining_start|apply ordered_nil| |].
    - rewrite <- (Permutation_length (sort_perm _)), map_length. lia.
    - exists ord. split; [|assumption]. intros fuel Hf. eapply loop_mono; eassumption.
  Qed.
  Lemma detect_cyclic : cyclic ns -> forall fuel, order_loop fuel ns (sort_nat (map nname ns)) [] = Err OutOfFuel.
  Proof. intros (v & Hv) fuel. eapply loop_diverges; [eassumption|apply remaining_start|apply ordered_nil]. Qed.
  (* a finished order is topological, and the network acyclic *)
  Lemma topological_ordered ord : topological ns ord -> ordered ord.
  Proof. intros (Hp & H). split; [apply (Permutation_NoDup (Permutation_sym Hp)); assumption|]. split; [intros v; apply Permutation_in; assumption|assumption]. Qed.
  Lemma topological_acyclic ord : topological ns ord -> acyclic ns.
  Proof.
    intros Ht v Hv. eapply no_self; [apply topological_ordered; eassumption| |eassumption].
    destruct Ht as (Hp & _). apply (Permutation_in _ (Permutation_sym Hp)). eapply ancestor_known; eassumption.
  Qed.
  Lemma loop_topological : forall fuel rem ord o, remaining rem ord -> ordered ord -> order_loop fuel ns rem ord = Ok o -> topological ns o.
  Proof.
    induction fuel as [|fuel IH]; intros rem ord o Hr Ho E; destruct rem as [|r rem']; cbn [order_loop] in E; try discriminate.
    1, 2: injection E as <-; destruct Ho as (H1 & H2 & H3); split; [|assumption]; apply NoDup_Permutation; [assumption|assumption|];
      intros v; split; [apply H2|]; intros Hv; destruct (in_dec Nat.eq_dec v ord) as [H|H]; [assumption|]; exfalso; apply (proj2 (proj2 Hr v)); split; assumption.
    set (rem := r :: rem') in *.
    destruct (pass_ok rem ord) as (ord' & E' & Ho' & Hi & _); [apply Hr|intros u Hu; apply Hr; assumption|intros u Hu; apply Hr; assumption|assumption|].
    rewrite E' in E. cbn [bind] in E. eapply IH; [|eassumption|eassumption]. eapply remaining_step; eassumption.
  Qed.
  Lemma detect_sound fuel o : order_loop fuel ns (sort_nat (map nname ns)) [] = Ok o -> topological ns o /\ acyclic ns.
  Proof. intros E. assert (Ht : topological ns o) by (eapply loop_topological; [apply remaining_start|apply ordered_nil|eassumption]). split; [assumption|]. eapply topological_acyclic; eassumption. Qed.
End Order.
