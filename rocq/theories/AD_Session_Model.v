(** Calls on an AD-tree that may raise, with the tree as it is left by the exception (mbtk/structures/ADTree.py,
    mbtk/structures/DynamicADTree.py).  The functions of AD_Model.v return the grown tree only when the call succeeds; here the
    tree is returned in every case: the dynamic tree keeps every Vary node that was appended before the exception
    (DynamicADTree.py:40-48), because nothing in these functions catches an exception and undoes the growth.
    Simplifications: those of AD_Model.v. *)
From Verif Require Import Base AD_Model AD_Query_Model.
Open Scope Z_scope.

Section S.
Variable D : dataset.
Variable dyn : bool.

(** get_Vary_child_for_column (ADTree.py:266-273, DynamicADTree.py:40-48): when the constructor of the Vary node raises,
    nothing was appended yet *)
Definition get_vary_s (c : nat) (n : adnode) : res varynode * adnode :=
  match find_vary c (ad_varys n) with
  | Some v => (Ok v, n)
  | None =>
    if dyn then
      match make_vary D (fun value s => mk_ad D (Z.of_nat c) value (Some s) (fun _ => Ok [])) (ad_sel n) c with
      | Ok v => (Ok v, set_varys n (ad_varys n ++ [v]))
      | Err e => (Err e, n)
      end
    else (Err AttributeError, n)
  end.

(** the loop over the AD children for the most common value (ADTree.py:180-183): the children visited before the exception,
    and the one that raised, keep their growth *)
Fixpoint visit_sum_s (f : adnode -> res Z * adnode) (ch : list (option adnode)) : res Z * list (option adnode) :=
  match ch with
  | [] => (Ok 0, [])
  | None :: ch' => let (r, l) := visit_sum_s f ch' in (r, None :: l)
  | Some n :: ch' =>
      match f n with
      | (Err e, n') => (Err e, Some n' :: ch')
      | (Ok x, n') => match visit_sum_s f ch' with
                      | (Ok s, l) => (Ok (x + s), Some n' :: l)
                      | (Err e, l) => (Err e, Some n' :: l)
                      end
      end
  end.

(** ADTree.query_count (ADTree.py:117-185) *)
Fixpoint qc_s (fuel : nat) (q : query) (node : adnode) : res Z * adnode :=
  match q with
  | [] => (Ok (ad_count node), node)
  | (c0, v0) :: _ =>
    if ad_leaf node then (count_leaf D q (ad_sel node), node) else
    match fuel with
    | O => (Err OutOfFuel, node)
    | S fuel' =>
      let c := min_key q c0 in
      match assoc Nat.eqb c q with
      | None => (Err KeyError, node)
      | Some v =>
        let next := qremove c q in
        match get_vary_s c node with
        | (Err e, node1) => (Err e, node1)
        | (Ok vary, node1) =>
          match find_child v (v_children vary) with
          | Some child =>
              let (r, child') := qc_s fuel' next child in
              (r, set_varys node1 (put_vary (set_children vary (put_child v child' (v_children vary))) (ad_varys node1)))
          | None =>
              if negb (v_mcv vary =? v) then (Ok 0, node1) else
              match next with
              | [] => (Ok (ad_count node1 - children_count (v_children vary)), node1)
              | _ =>
                let (r, ch') := visit_sum_s (qc_s fuel' next) (v_children vary) in
                let node2 := set_varys node1 (put_vary (set_children vary ch') (ad_varys node1)) in
                match r with
                | Err e => (Err e, node2)
                | Ok s => match qc_s fuel' next node2 with
                          | (Ok p, node3) => (Ok (p - s), node3)
                          | (Err e, node3) => (Err e, node3)
                          end
                end
              end
          end
        end
      end
    end
  end.

(** the loop over `vary.values` (ADTree.py:310-315) *)
Fixpoint visit_values_s (f : adnode -> res ctnode * adnode) (mcv : Z) (vals : list Z) (ch : list (option adnode)) (acc : ctnode)
  : res ctnode * list (option adnode) :=
  match vals with
  | [] => (Ok acc, ch)
  | v :: vals' =>
    if v =? mcv then visit_values_s f mcv vals' ch acc else
    match find_child v ch with
    | None => visit_values_s f mcv vals' ch acc
    | Some n => match f n with
                | (Ok t, n') => visit_values_s f mcv vals' (put_child v n' ch) (append_child acc t)
                | (Err e, n') => (Err e, put_child v n' ch)
                end
    end
  end.

(** make_contingency_tree (ADTree.py:296-328) *)
Fixpoint mct_s (cols : list nat) (node : adnode) : res ctnode * adnode :=
  match cols with
  | [] => (Ok (CT (ad_col node) (ad_value node) (Some (ad_count node)) None), node)
  | c :: cols' =>
    if ad_leaf node then (ct_from_leaf D cols node, node) else
    match get_vary_s c node with
    | (Err e, node1) => (Err e, node1)
    | (Ok vary, node1) =>
      let (r, ch') := visit_values_s (mct_s cols') (v_mcv vary) (v_values vary) (v_children vary)
                        (CT (ad_col node) (ad_value node) None None) in
      let node2 := set_varys node1 (put_vary (set_children vary ch') (ad_varys node1)) in
      match r with
      | Err e => (Err e, node2)
      | Ok non_mcv =>
        match mct_s cols' node2 with
        | (Err e, node3) => (Err e, node3)
        | (Ok own, node3) =>
          let own' := match own with CT _ _ n ch => CT (Z.of_nat c) (v_mcv vary) n ch end in
          (mcv_ct <- match ct_children non_mcv with
                     | None => Ok own'
                     | Some d => foldM (fun t kv => combine_in_place Z.sub t (snd kv)) d own'
                     end ;;
           Ok (append_child non_mcv mcv_ct), node3)
        end
      end
    end
  end.

(** make_pmf up to the division (ADTree.py:79-90) *)
Definition make_counts_s (vars : list nat) (t : adnode) : res (list (list Z * option Z)) * adnode :=
  let (r, t') := mct_s (sort_nat vars) t in
  (ct <- r ;; '(_, d) <- convert ct [] [] ;; Ok d, t').

(** one call inside `try: ... except Exception:` on the tree object (ADTree.py:79-90, 117-123, 276-284, 287-293) *)
Definition do_call_s (c : call) (t : adnode) : res answer * adnode :=
  match c with
  | CCount q => let (r, t') := qc_s (length q) q t in (n <- r ;; Ok (ACount n), t')
  | CCounts vars => let (r, t') := make_counts_s vars t in (d <- r ;; Ok (ACounts d), t')
  | CReload => (Ok ANone, pickle_roundtrip dyn t)
  end.
(** a program that goes on after an exception: the outcome of every call, and the tree it leaves (ADTree.py:79-185) *)
Fixpoint session (cs : list call) (t : adnode) : list (res answer) * adnode :=
  match cs with
  | [] => ([], t)
  | c :: cs' => let (o, t1) := do_call_s c t in let (os, t2) := session cs' t1 in (o :: os, t2)
  end.
End S.
