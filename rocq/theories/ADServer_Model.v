(** Model of adtree-server.py: a program that loads a pickled AD-tree and answers the requests of other processes over a reply socket.

    Simplifications: the requests arrive one after the other, in the order in which the socket gives them to the server, from any clients; pickling a
    request and a reply for the wire changes neither; the printed messages and durations are left out; the tree is the one a pickled AD-tree of data [D]
    is loaded as. *)
From Coq Require Import Reals.
From Verif Require Import Base AD_Model AD_Query_Model.

(** (request, arguments) (adtree-server.py:38): the two known requests, another string, or something that is no pair *)
Inductive request := RPmf (variables : list nat) | RCount (q : query) | RUnknown | RNotAPair.
(** what is sent back (adtree-server.py:47, 57) *)
Inductive reply := PPmf (pmf : list (list Z * R)) | PCount (n : Z).
(** the server, waiting in recv_pyobj with its tree, or ended by an exception [adtree-server.py:36-58] *)
Inductive server := Waiting (t : adnode) | Down.

Section S.
Variable D : dataset.
Variable dyn : bool.

(** the start: load_AD_tree (adtree-server.py:9-24, 34) *)
Definition serve_start (t : adnode) : server := Waiting (pickle_roundtrip dyn t).
(** one turn of the loop (adtree-server.py:36-58): an exception ends the program; an unknown request gets no reply, and the recv_pyobj of the next turn
    raises because a reply is due *)
Definition serve (r : request) (s : server) : option reply * server :=
  match s with
  | Down => (None, Down)
  | Waiting t =>
    match r with
    | RPmf vars => match make_pmf D dyn vars t with Ok (p, t') => (Some (PPmf p), Waiting t') | Err _ => (None, Down) end
    | RCount q => match query_count D dyn q t with Ok (n, t') => (Some (PCount n), Waiting t') | Err _ => (None, Down) end
    | RUnknown => (None, Down)
    | RNotAPair => (None, Down)
    end
  end.
(** the requests in the order in which they arrive (adtree-server.py:36-58) *)
Fixpoint serve_all (rs : list request) (s : server) : list (option reply) * server :=
  match rs with
  | [] => ([], s)
  | r :: rs' => let (a, s1) := serve r s in let (l, s2) := serve_all rs' s1 in (a :: l, s2)
  end.
End S.
