(** Model of mbtk/algorithms/mb/setcache.py, ipcmb.py and iamb.py.
    Variables are naturals; a Python set is a list without repetitions.  The order in which Python
    iterates over a set is not specified: it is given by [iter], any function that lists the
    elements (it may depend on the state of the environment and on the history of the set).
    The CI test is an arbitrary stateful object [ci]: it may change state, answer, or raise. *)
From Verif Require Import Base.

(** ** SetCache (setcache.py:1-16) *)
(** frozenset(elements) as dictionary key: two keys are equal iff they have the same elements;
    canonical form: sorted, without repetitions [setcache.py:7-16] *)
Definition frozenset (elements : list nat) : list nat := sort_nat (nodup Nat.eq_dec elements).
(** == of these keys (setcache.py:7-16) *)
Definition list_eqb (a b : list nat) : bool := if list_eq_dec Nat.eq_dec a b then true else false.
(** the dictionary of a SetCache (setcache.py:3-4) *)
Definition setcache := list (list nat * list nat).
(** SetCache.add (7-8), SetCache.get (11-12), SetCache.contains (15-16) *)
Definition sc_add (v : list nat) (elements : list nat) (c : setcache) : setcache :=
  assoc_set list_eqb (frozenset elements) v c.
(** SetCache.get (setcache.py:11-12) *)
Definition sc_get (elements : list nat) (c : setcache) : res (list nat) :=
  of_option KeyError (assoc list_eqb (frozenset elements) c).
(** SetCache.contains (setcache.py:15-16) *)
Definition sc_contains (elements : list nat) (c : setcache) : bool :=
  match assoc list_eqb (frozenset elements) c with Some _ => true | None => false end.

(** ** set operations [s - {x} (ipcmb.py:58-151)] *)
Definition set_remove1 (s : list nat) (x : nat) : list nat := filter (fun y => negb (y =? x)) s.   (* s - {x} [s - t (ipcmb.py:58-151)] *)
Definition set_diff (s t : list nat) : list nat := filter (fun y => negb (mem y t)) s.            (* s - t [s.add(x) (ipcmb.py:58-151)] *)
Definition set_add (x : nat) (s : list nat) : list nat := if mem x s then s else s ++ [x].          (* s.add(x) [s + [x] or s with {x} (ipcmb.py:58-151)] *)
Definition set_union1 (s : list nat) (x : nat) : list nat := set_add x s.                           (* s | {x} *)

(** itertools.combinations [ipcmb.py:109-151] *)
Fixpoint combinations {A} (k : nat) (l : list A) : list (list A) :=
  match k, l with
  | O, _ => [[]]
  | S _, [] => []
  | S k', x :: l' => map (cons x) (combinations k' l') ++ combinations k l'
  end.

Section Algorithms.
  Context {St : Type}.
  Variable ci : St -> nat -> nat -> list nat -> res bool * St.
  Variable iter : St -> list nat -> list nat.

  (** ** IPC-MB (ipcmb.py) *)

  (** the loop `for Z in itertools.combinations(...)` of RecognizePC (125-141); returns whether X was
      added to NonPC *)
  Fixpoint try_cutsets (T X : nat) (Zs : list (list nat)) (non : bool) (c : setcache) (st : St)
    : res (bool * setcache * St) :=
    match Zs with
    | [] => Ok (non, c, st)
    | Z :: Zs' =>
      match ci st X T Z with
      | (Ok true, st') => Ok (true, sc_add Z [T; X] c, st')                      (* 130-135, break *)
      | (Ok false, st') => try_cutsets T X Zs' non c st'                          (* 136-138 *)
      | (Err InsufficientSamples, st') => try_cutsets T X Zs' true c st'          (* 139-141, continue *)
      | (Err e, _) => Err e
      end
    end.

  (** the loop `for X in AdjacentNodes` (123-143) *)
  Fixpoint pc_round (T : nat) (Adj : list nat) (Xs : list nat) (cut : nat) (NonPC : list nat) (c : setcache) (st : St)
    : res (list nat * setcache * St) :=
    match Xs with
    | [] => Ok (NonPC, c, st)
    | X :: Xs' =>
      '(non, c1, st1) <- try_cutsets T X (combinations cut (iter st (set_remove1 Adj X))) false c st ;;
      let c2 := if sc_contains [T; X] c1 then c1 else sc_add [] [T; X] c1 in     (* 142-143 *)
      pc_round T Adj Xs' cut (if non then set_add X NonPC else NonPC) c2 st1
    end.

  (** `while True` (119-148) *)
  Fixpoint recognize_loop (fuel : nat) (T : nat) (Adj : list nat) (cut : nat) (c : setcache) (st : St)
    : res (list nat * setcache * St) :=
    match fuel with
    | O => Err OutOfFuel
    | S fuel' =>
      '(NonPC, c1, st1) <- pc_round T Adj (iter st Adj) cut [] c st ;;
      let Adj1 := set_diff Adj NonPC in                                           (* 144 *)
      if length Adj1 <=? S cut then Ok (Adj1, c1, st1)                            (* 146-148 *)
      else recognize_loop fuel' T Adj1 (S cut) c1 st1
    end.
  (** AlgorithmIPCMB.RecognizePC (109-151) *)
  Definition recognize_pc (fuel : nat) (T : nat) (Adj : list nat) (c : setcache) (st : St) :=
    recognize_loop fuel T Adj 0 c st.

  (** `for X in CandidatePC_T` of IPCMB (69-74); CandidateSpouses is a second SetCache *)
  Fixpoint symmetry_loop (fuel : nat) (T : nat) (U : list nat) (Xs : list nat) (PC : list nat) (spouses c : setcache) (st : St)
    : res (list nat * setcache * setcache * St) :=
    match Xs with
    | [] => Ok (PC, spouses, c, st)
    | X :: Xs' =>
      '(PC_X, c1, st1) <- recognize_pc fuel X (set_remove1 U X) c st ;;
      if mem T PC_X
      then symmetry_loop fuel T U Xs' (set_add X PC) (sc_add (set_remove1 PC_X T) [T; X] spouses) c1 st1
      else symmetry_loop fuel T U Xs' PC spouses c1 st1
    end.

  (** `for Y in CandidateSpouses.get(T, X)` (91-103) *)
  Fixpoint spouse_inner (T X : nat) (Ys : list nat) (MB : list nat) (c : setcache) (st : St) : res (list nat * St) :=
    match Ys with
    | [] => Ok (MB, st)
    | Y :: Ys' =>
      if mem Y MB then spouse_inner T X Ys' MB c st else
      sep <- sc_get [T; Y] c ;;
      match ci st T Y (set_union1 sep X) with
      | (Ok true, st') => spouse_inner T X Ys' MB c st'
      | (Ok false, st') => spouse_inner T X Ys' (set_add Y MB) c st'
      | (Err InsufficientSamples, st') => spouse_inner T X Ys' MB c st'
      | (Err e, _) => Err e
      end
    end.
  (** `for X in PC` (89-103) *)
  Fixpoint spouse_loop (T : nat) (Xs : list nat) (MB : list nat) (spouses c : setcache) (st : St) : res (list nat * St) :=
    match Xs with
    | [] => Ok (MB, st)
    | X :: Xs' =>
      Ys <- sc_get [T; X] spouses ;;
      '(MB1, st1) <- spouse_inner T X (iter st Ys) MB c st ;;
      spouse_loop T Xs' MB1 spouses c st1
    end.

  (** AlgorithmIPCMB.IPCMB (58-106) *)
  Definition ipcmb (pc_only : bool) (U : list nat) (T : nat) (st : St) (fuel : nat) : res (list nat * St) :=
    '(CandPC_T, c1, st1) <- recognize_pc fuel T (set_remove1 U T) [] st ;;
    '(PC, spouses, c2, st2) <- symmetry_loop fuel T U (iter st1 CandPC_T) [] [] c1 st1 ;;
    if pc_only then Ok (PC, st2)
    else spouse_loop T (iter st2 PC) PC spouses c2 st2.

  (** discover_mb / select_features (42-55): `sorted(list(...))` *)
  Definition ipcmb_discover_mb (pc_only : bool) (U : list nat) (T : nat) (st : St) (fuel : nat) : res (list nat * St) :=
    '(MB, st') <- ipcmb pc_only U T st fuel ;; Ok (sort_nat MB, st').

  (** ** IAMB (iamb.py) *)
  (** The correlation heuristic is any stateful object; it returns a score of some type [Score] that
      Python can compare ([gt a b] is `a > b`, any function: NaN-like scores are allowed), or raises. *)
  Context {Score : Type}.
  Variable gt : Score -> Score -> bool.
  Variable heur : St -> nat -> nat -> list nat -> res Score * St.

  (** `max(possible_candidates, key=...)` (119): the first item of the iteration order whose key no
      later key exceeds *)
  Fixpoint argmax (T : nat) (CMB : list nat) (best : nat) (score : Score) (xs : list nat) (st : St) : res (nat * St) :=
    match xs with
    | [] => Ok (best, st)
    | x :: xs' =>
      match heur st T x CMB with
      | (Ok s, st1) => if gt s score then argmax T CMB x s xs' st1 else argmax T CMB best score xs' st1
      | (Err e, _) => Err e
      end
    end.
  (** highest_correlated_candidate and dep (117-122); max() of an empty set raises ValueError *)
  Definition highest_correlated_candidate (T : nat) (cands CMB : list nat) (st : St) : res (nat * St) :=
    match iter st cands with
    | [] => Err ValueError
    | x :: xs => match heur st T x CMB with
                 | (Ok s, st1) => argmax T CMB x s xs st1
                 | (Err e, _) => Err e
                 end
    end.

  (** compute_candidate_Markov_boundary (74-99) *)
  Fixpoint grow (fuel : nat) (T : nat) (cands CMB : list nat) (st : St) : res (list nat * St) :=
    match fuel with
    | O => Err OutOfFuel
    | S fuel' =>
      match cands with
      | [] => Ok (CMB, st)                                                        (* 82-83 *)
      | _ =>
        '(cand, st1) <- highest_correlated_candidate T cands CMB st ;;
        match ci st1 T cand CMB with
        | (Ok false, st2) => grow fuel' T (set_remove1 cands cand) (set_add cand CMB) st2   (* 87-90 *)
        | (Ok true, st2) => Ok (CMB, st2)                                         (* 96-97 *)
        | (Err InsufficientSamples, st2) => grow fuel' T (set_remove1 cands cand) CMB st2   (* 91-93 *)
        | (Err e, _) => Err e
        end
      end
    end.

  (** remove_false_positives_from_Markov_boundary (102-114) *)
  Fixpoint shrink (T : nat) (CMB : list nat) (Xs : list nat) (fp : list nat) (st : St) : res (list nat * St) :=
    match Xs with
    | [] => Ok (set_diff CMB fp, st)
    | X :: Xs' =>
      match ci st T X (set_remove1 (set_diff CMB fp) X) with
      | (Ok true, st') => shrink T CMB Xs' (set_add X fp) st'
      | (Ok false, st') => shrink T CMB Xs' fp st'
      | (Err InsufficientSamples, st') => shrink T CMB Xs' fp st'
      | (Err e, _) => Err e
      end
    end.

  (** IAMB / discover_mb (50-71) *)
  Definition iamb_discover_mb (U : list nat) (T : nat) (st : St) (fuel : nat) : res (list nat * St) :=
    '(CMB, st1) <- grow fuel T (set_remove1 U T) [] st ;;
    '(MB, st2) <- shrink T CMB (iter st1 CMB) [] st1 ;;
    Ok (sort_nat MB, st2).
End Algorithms.
