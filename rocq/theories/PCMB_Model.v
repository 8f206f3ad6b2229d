(** Model of mbtk/algorithms/mb/pcmb.py.  The CI test and the heuristic are arbitrary functions that
    may raise (they are given no state here: the same question always gets the same answer, as with
    every CI test the library ships).  [iter] is the iteration order of a Python set. *)
From Verif Require Import Base MB_Model.

Section PCMB.
  Context {Score : Type}.
  Variable ci : nat -> nat -> list nat -> res bool.
  Variable heur : nat -> nat -> list nat -> res Score.
  Variable lt : Score -> Score -> bool.                    (* `a < b` *)
  Variable iter : list nat -> list nat.
  Variable target : nat.
  Variable U : list nat.

  (** builtin `min(l, key=key)`: ValueError when empty [pcmb.py:143-146] *)
  Fixpoint min_from {A} (key : A -> res Score) (best : A) (s : Score) (l : list A) : res A :=
    match l with
    | [] => Ok best
    | x :: l' => t <- key x ;; if lt t s then min_from key x t l' else min_from key best s l'
    end.
  (** min(l, key=key) (pcmb.py:143-146) *)
  Definition min_by {A} (key : A -> res Score) (l : list A) : res A :=
    match l with [] => Err ValueError | x :: l' => s <- key x ;; min_from key x s l' end.

  (** powerset (165-169) *)
  Definition powerset (l : list nat) : list (list nat) := flat_map (fun r => combinations r l) (seq 0 (S (length l))).
  (** strongest_separator (143-146); dep (158-162) always uses self.target *)
  Definition strongest_separator (PCD : list nat) (candidate : nat) : res (list nat) :=
    min_by (fun Z => heur target candidate Z) (powerset (iter PCD)).

  (** SepSetCache and SepSetZ: dictionaries variable -> tuple [pcmb.py:97-130, 143-155] *)
  Definition dict := list (nat * list nat).
  (** d[k] (pcmb.py:143-155) *)
  Definition dget (d : dict) (k : nat) : res (list nat) := of_option KeyError (assoc Nat.eqb k d).
  (** d[k] = v (pcmb.py:97-130) *)
  Definition dset (d : dict) (k : nat) (v : list nat) : dict := assoc_set Nat.eqb k v d.

  (** `for X in ...: self.SepSetCache[X] = self.strongest_separator(..., X)` (105-106, 116-117) *)
  Fixpoint fill (sep : nat -> res (list nat)) (Xs : list nat) (cache : dict) : res dict :=
    match Xs with
    | [] => Ok cache
    | X :: Xs' => Z <- sep X ;; fill sep Xs' (dset cache X Z)
    end.
  (** find_false_candidates (133-140) *)
  Fixpoint find_false (Xs : list nat) (cache : dict) (fp : list nat) (sepz : dict) : res (list nat * dict) :=
    match Xs with
    | [] => Ok (fp, sepz)
    | X :: Xs' =>
      Z <- dget cache X ;;
      b <- ci target X Z ;;
      if b then find_false Xs' cache (set_add X fp) (dset sepz X Z) else find_false Xs' cache fp sepz
    end.
  (** highest_correlated_candidate_sep, dep_with_separator (149-155) *)
  Definition highest_sep (cands : list nat) (cache : dict) : res nat :=
    min_by (fun c => Z <- dget cache c ;; heur target c Z) (iter cands).

  (** the loop of GetPCD (103-126) *)
  Fixpoint pcd_loop (fuel : nat) (PCD cand : list nat) (cache sepz : dict) : res (list nat * (dict * dict)) :=
    match fuel with
    | O => Err OutOfFuel
    | S f =>
      cache1 <- fill (strongest_separator PCD) (iter cand) cache ;;
      '(fp, sepz1) <- find_false (iter cand) cache1 [] sepz ;;
      let cand1 := set_diff cand fp in
      c <- highest_sep cand1 cache1 ;;
      let PCD1 := set_add c PCD in
      let cand2 := set_remove1 cand1 c in
      cache2 <- fill (fun X => strongest_separator (set_remove1 PCD1 X) X) (iter PCD1) cache1 ;;
      '(fp2, sepz2) <- find_false (iter PCD1) cache2 [] sepz1 ;;
      let PCD2 := set_diff PCD1 fp2 in
      match fp2 with
      | [] => Ok (PCD2, (cache2, sepz2))
      | _ => pcd_loop f PCD2 cand2 cache2 sepz2
      end
    end.
  (** GetPCD (97-130) *)
  Definition get_pcd (fuel : nat) (T : nat) (d : dict * dict) : res (list nat * (dict * dict)) :=
    pcd_loop fuel [] (set_remove1 U T) (fst d) (snd d).
  (** GetPC (88-94) *)
  Fixpoint get_pc_loop (fuel : nat) (T : nat) (Xs PC : list nat) (d : dict * dict) : res (list nat * (dict * dict)) :=
    match Xs with
    | [] => Ok (PC, d)
    | X :: Xs' =>
      '(PCDX, d1) <- get_pcd fuel X d ;;
      get_pc_loop fuel T Xs' (if mem T PCDX then set_add X PC else PC) d1
    end.
  (** GetPC (pcmb.py:88-94) *)
  Definition get_pc (fuel : nat) (T : nat) (d : dict * dict) : res (list nat * (dict * dict)) :=
    '(PCD, d1) <- get_pcd fuel T d ;; get_pc_loop fuel T (iter PCD) [] d1.

  (** `for X in self.GetPC(Y)` (76-83).  PC and MB are the same set object (72), so nothing is ever
      added: `Z | {Y}` on the tuple Z raises TypeError. *)
  Fixpoint spouses_of (Y : nat) (Xs : list nat) (PC : list nat) (d : dict * dict) : res unit :=
    match Xs with
    | [] => Ok tt
    | X :: Xs' =>
      if mem X PC then spouses_of Y Xs' PC d else
      Z <- dget (snd d) X ;;                                   (* 78 *)
      b <- ci target X Z ;;                                    (* 79 *)
      if b then Err TypeError                                  (* 81: Z | {Y} *)
      else Err RuntimeError                                    (* 80: raise Exception("PCMB error") *)
    end.
  (** the outer loop of PCMB (pcmb.py:65-85) *)
  Fixpoint pcmb_loop (fuel : nat) (Ys PC : list nat) (d : dict * dict) : res (list nat) :=
    match Ys with
    | [] => Ok PC
    | Y :: Ys' =>
      '(PCY, d1) <- get_pc fuel Y d ;;
      _ <- spouses_of Y (iter PCY) PC d1 ;;
      pcmb_loop fuel Ys' PC d1
    end.
  (** PCMB / discover_mb (55-85) *)
  Definition pcmb_discover_mb (fuel : nat) : res (list nat) :=
    '(PC, d) <- get_pc fuel target ([], []) ;;
    MB <- pcmb_loop fuel (iter PC) PC d ;;
    Ok (sort_nat MB).
End PCMB.
