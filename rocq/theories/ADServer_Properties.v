(** C80.  The AD-tree server: every client gets the exact answer for the data, whatever was asked before and by whom, until the first request that
    is not well-formed; after that nobody gets any. *)
From Coq Require Import Reals.
From Verif Require Import Base AD_Model AD_Query_Model AD_Spec AD_Proofs AD_CT_Proofs AD_More_Proofs AD_Tables_Proofs AD_Examples AD_Properties ADServer_Model.
Open Scope Z_scope.

(** *** specification *)
(** requests about columns of the data *)
Definition wf_request (D : dataset) (r : request) : Prop :=
  match r with
  | RPmf vars => vars <> [] /\ NoDup vars /\ forall c, In c vars -> (c < ncols D)%nat
  | RCount q => wf_query D q
  | _ => False
  end.
(** the reply is the one the data give *)
Definition reply_exact (D : dataset) (r : request) (a : option reply) : Prop :=
  match r, a with
  | RCount q, Some (PCount n) => n = count_matching D q
  | RPmf vars, Some (PPmf pmf) => exists cols, Permutation vars cols /\ StronglySorted lt cols /\ NoDup (map fst pmf) /\
      (forall key p, In (key, p) pmf -> length key = length vars /\ p = empirical D cols key) /\
      (forall key, length key = length vars -> ~ In key (map fst pmf) -> empirical D cols key = 0%R)
  | _, _ => False
  end.

Lemma calls_app D dyn : forall cs cs' t a t1 a' t2, do_calls D dyn cs t = Ok (a, t1) -> do_calls D dyn cs' t1 = Ok (a', t2) -> do_calls D dyn (cs ++ cs') t = Ok (a ++ a', t2).
Proof.
  induction cs as [|c cs IH]; intros cs' t a t1 a' t2 H H'; cbn [do_calls app] in *.
  - injection H as <- <-. exact H'.
  - unfold bind in *. destruct (do_call D dyn c t) as [(x & t0)|e]; [|discriminate]. destruct (do_calls D dyn cs t0) as [(l & t3)|e] eqn:E; [|discriminate].
    injection H as <- <-. rewrite (IH cs' t0 l t3 a' t2 E H'). reflexivity.
Qed.

Section H.
  Variable D : dataset.
  Variable dyn : bool.
  Hypothesis WF : wf_dataset D.
  Hypothesis NM : no_minus_one D.
  Hypothesis TH : threshold_ok D.
  Hypothesis NE : rows D <> [].
  Variable t0 : adnode.
  Hypothesis B : build_tree D dyn = Ok t0.

  (** the server's tree is the built one after a history of well-formed calls *)
  Definition reached (s : server) : Prop := exists calls answers t, s = Waiting t /\ Forall (wf_call D) calls /\ do_calls D dyn calls t0 = Ok (answers, t).
  Lemma serve_ok r s : reached s -> wf_request D r -> reply_exact D r (fst (serve D dyn r s)) /\ reached (snd (serve D dyn r s)).
  Proof.
    intros (calls & answers & t & -> & Hc & Ht) Hr. destruct r as [vars|q| |]; cbn [wf_request] in Hr; try contradiction; cbn [serve].
    - destruct Hr as (Hv & Hn & Hl). destruct (pmf_exact D dyn WF NM TH NE) as (t1 & B1 & P). rewrite B in B1. injection B1 as <-.
      destruct (P calls answers t Hc Ht vars Hv Hn Hl) as (pmf & t' & cols & E & P1 & P2 & P3 & P4 & P5 & _). rewrite E. cbn [fst snd]. split.
      + exists cols. auto.
      + unfold make_pmf, bind in E. destruct (make_counts D dyn vars t) as [(d & t2)|e] eqn:Em; [|discriminate].
        destruct (mapM _ d) as [p|e]; [|discriminate]. injection E as _ <-.
        exists (calls ++ [CCounts vars]), (answers ++ [ACounts d]), t2. split; [reflexivity|]. split.
        * apply Forall_app. split; [exact Hc|]. constructor; [cbn [wf_call]; auto|constructor].
        * apply (calls_app D dyn calls [CCounts vars] t0 answers t); [exact Ht|]. cbn [do_calls do_call]. unfold bind. rewrite Em. reflexivity.
    - destruct (history_exact D dyn WF NM TH) as (t1 & B1 & P). rewrite B in B1. injection B1 as <-.
      destruct (P (calls ++ [CCount q])) as (ans & t' & E & F); [apply Forall_app; split; [exact Hc|constructor; [exact Hr|constructor]]|].
      assert (Q : exists n t2, query_count D dyn q t = Ok (n, t2) /\ n = count_matching D q).
      { clear - E F Ht. destruct (query_count D dyn q t) as [(n & t2)|e] eqn:Eq.
        - exists n, t2. split; [reflexivity|].
          assert (E' : do_calls D dyn (calls ++ [CCount q]) t0 = Ok (answers ++ [ACount n], t2)).
          { apply (calls_app D dyn calls [CCount q] t0 answers t); [exact Ht|]. cbn [do_calls do_call]. unfold bind. rewrite Eq. reflexivity. }
          rewrite E' in E. injection E as <- _. apply Forall2_app_inv_l in F. destruct F as (l1 & l2 & F1 & F2 & Ea).
          inversion F2 as [|x y lx ly Hxy H2 Ex Ey]; subst. inversion H2; subst.
          apply app_inj_tail in Ea. destruct Ea as (_ & <-). exact Hxy.
        - exfalso. assert (X : forall cs u a u1, do_calls D dyn cs u = Ok (a, u1) -> query_count D dyn q u1 = Err e -> do_calls D dyn (cs ++ [CCount q]) u = Err e).
          { induction cs as [|c cs IH]; intros u a u1 H1 H2; cbn [do_calls app] in *; unfold bind in *.
            - injection H1 as _ <-. cbn [do_call]. unfold bind. rewrite H2. reflexivity.
            - destruct (do_call D dyn c u) as [(x & u0)|e1]; [|discriminate]. destruct (do_calls D dyn cs u0) as [(l & u3)|e1] eqn:E3; [|discriminate].
              injection H1 as _ <-. rewrite (IH u0 l u3 E3 H2). reflexivity. }
          rewrite (X calls t0 answers t Ht Eq) in E. discriminate. }
      destruct Q as (n & t2 & Eq & En). rewrite Eq. cbn [fst snd]. split; [exact En|].
      exists (calls ++ [CCount q]), (answers ++ [ACount n]), t2. split; [reflexivity|]. split; [apply Forall_app; split; [exact Hc|constructor; [exact Hr|constructor]]|].
      apply (calls_app D dyn calls [CCount q] t0 answers t); [exact Ht|]. cbn [do_calls do_call]. unfold bind. rewrite Eq. reflexivity.
  Qed.
  Lemma serve_all_ok rs : forall s, reached s -> Forall (wf_request D) rs -> Forall2 (reply_exact D) rs (fst (serve_all D dyn rs s)) /\ reached (snd (serve_all D dyn rs s)).
  Proof.
    induction rs as [|r rs IH]; intros s Hs H; [split; [constructor|exact Hs]|]. apply Forall_cons_iff in H. destruct H as (Hr & H).
    cbn [serve_all]. destruct (serve_ok r s Hs Hr) as (R1 & R2). destruct (serve D dyn r s) as (a & s1). cbn [fst snd] in *.
    destruct (IH s1 R2 H) as (R3 & R4). destruct (serve_all D dyn rs s1) as (l & s2). cbn [fst snd] in *. split; [constructor; assumption|exact R4].
  Qed.
End H.

(** every sequence of well-formed requests, of any clients, to a server of a static or a dynamic tree: each is answered exactly *)
Theorem C80_every_request_answered_exactly : forall D dyn, wf_dataset D -> no_minus_one D -> threshold_ok D -> rows D <> [] ->
  exists t, build_tree D dyn = Ok t /\
    forall requests, Forall (wf_request D) requests -> Forall2 (reply_exact D) requests (fst (serve_all D dyn requests (serve_start dyn t))).
Proof.
  intros D dyn WF NM TH NE. destruct (pmf_exact D dyn WF NM TH NE) as (t & B & _). exists t. split; [exact B|]. intros rs H.
  apply (serve_all_ok D dyn WF NM TH NE t B rs); [|exact H]. exists [CReload], [ANone], (pickle_roundtrip dyn t).
  split; [reflexivity|]. split; [repeat constructor|]. reflexivity.
Qed.
(** the answers before the first bad request do not depend on what comes after *)
Theorem C80_earlier_answers_stand : forall D dyn before after s,
  exists l, fst (serve_all D dyn (before ++ after) s) = fst (serve_all D dyn before s) ++ l.
Proof.
  intros D dyn. induction before as [|r rs IH]; intros after s; [eexists; reflexivity|]. cbn [app serve_all].
  destruct (serve D dyn r s) as (a & s1). destruct (IH after s1) as (l & E). exists l. destruct (serve_all D dyn (rs ++ after) s1), (serve_all D dyn rs s1). cbn [fst] in *. rewrite E. reflexivity.
Qed.
(** once a request has got no reply, no later request of anybody gets one *)
Lemma down_stays D dyn rs : serve_all D dyn rs Down = (map (fun _ => None) rs, Down).
Proof. induction rs as [|r rs IH]; [reflexivity|]. cbn [serve_all serve map]. rewrite IH. reflexivity. Qed.
Theorem C80_one_bad_request_ends_the_service : forall D dyn r s requests, fst (serve D dyn r s) = None ->
  fst (serve_all D dyn (r :: requests) s) = None :: map (fun _ => None) requests.
Proof.
  intros D dyn r s rs H. cbn [serve_all].
  assert (E : serve D dyn r s = (None, Down)).
  { destruct s as [t|]; [|reflexivity]. destruct r as [vars|q| |]; cbn [serve] in *; try reflexivity.
    - destruct (make_pmf D dyn vars t) as [(p & t')|e]; [discriminate|reflexivity].
    - destruct (query_count D dyn q t) as [(n & t')|e]; [discriminate|reflexivity]. }
  rewrite E, down_stays. reflexivity.
Qed.
(** such requests: unknown ones and ones that are no pair (a count for a column the data do not have: see the example) *)
Theorem C80_unknown_requests_end_the_service : forall D dyn s requests r, r = RUnknown \/ r = RNotAPair ->
  fst (serve_all D dyn (r :: requests) s) = None :: map (fun _ => None) requests.
Proof. intros D dyn s rs r [-> | ->]; apply C80_one_bad_request_ends_the_service; destruct s; reflexivity. Qed.
Theorem C80_example : exists t, build_tree (Dex 3) true = Ok t /\
  wf_dataset (Dex 3) /\ no_minus_one (Dex 3) /\ threshold_ok (Dex 3) /\ rows (Dex 3) <> [] /\
  Forall (wf_request (Dex 3)) [RCount qex; RPmf [2; 0]%nat; RCount qex] /\
  fst (serve_all (Dex 3) true [RCount qex; RUnknown; RCount qex] (serve_start true t)) = [Some (PCount 2); None; None] /\
  fst (serve_all (Dex 3) true [RCount qex; RCount [(9%nat, 0)]; RCount qex] (serve_start true t)) = [Some (PCount 2); None; None].
Proof.
  eexists. split; [vm_compute; reflexivity|]. split; [apply Dex_wf|]. split; [apply Dex_no_minus_one|]. split; [apply Dex_threshold|]. split; [discriminate|]. split.
  - repeat apply Forall_cons; try apply Forall_nil; cbn [wf_request]; try apply qex_wf.
    split; [discriminate|]. split; [nodup|]. intros c H. cbn in *. lia.
  - split; vm_compute; reflexivity.
Qed.
Print Assumptions C80_every_request_answered_exactly.
Print Assumptions C80_one_bad_request_ends_the_service.
