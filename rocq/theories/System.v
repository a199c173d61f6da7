(** Clients and a server, joined by the network: [Client::connect] (client/src/lib.rs:44-52), the
    calls of [ServerBackend] (client/src/backend/server.rs:97-153) and the server (server/src/main.rs).

    Every connection has a client with calls that run at the same time ([Wire]) and a task of the
    server ([Server]).  The network carries what the client wrote to the server, in order, in pieces
    of any size and with any delay; what the server wrote is there for the client to read.

    Simplifications: which calls a client makes is given when it connects (a call that is not made
    yet is one that has not been polled); the bytes of their requests are arbitrary; a client that
    reads finds some beginning of all that the server has written on the connection, because reading
    never takes anything away ([WireFacts.read_returns]). *)
From Verif Require Import Bytes Value Metrics Prog Client Wire Server.
From stdpp Require Import list.
From Coq Require Import NArith.

(** The client's side of a connection: the bytes of its requests, its calls, and how much of what it
    wrote has been carried to the server; client/src/backend/server.rs:97-101. *)
Record link_end := LinkEnd { l_env : env; l_reqs : list bytes; l_wire : wire; l_carried : nat }.

(** The connections as the clients have them, and the server;
    client/src/backend/server.rs:97-101, server/src/main.rs:58-66. *)
Record system := System { y_ends : list link_end; y_server : server }.

(** Nobody has connected; server/src/main.rs:58. *)
Definition system_new : system := System [] server_new.

(** What can happen; client/src/lib.rs:44-52, client/src/backend/server.rs:97-153,
    server/src/main.rs:64-119. *)
Inductive system_event :=
| YConnect (ec : env) (reqs : list bytes) (* a client connects, with these requests to send *)
| YClient (i : nat) (ev : wire_event)     (* something happens in client [i] *)
| YCarry (i : nat) (n : nat)              (* the network carries [n] bytes to the server *)
| YEnd (i : nat)                          (* client [i] closes the connection *)
| YFail (i : nat)                         (* the server's socket of connection [i] fails *)
| YStep (i : nat).                        (* the server's task of connection [i] makes a step *)

(** What a client can find to read: a beginning of what the server wrote;
    client/src/backend/server.rs:130-134. *)
Definition can_find (cs : list conn) (i : nat) (ev : wire_event) : bool :=
  match ev, cs !! i with
  | WRead _ arrives _, Some c => bool_decide (arrives `prefix_of` k_sent c)
  | WRead _ _ _, None => false
  | _, _ => true
  end.

(** The server's part of an event that is the server's alone; server/src/main.rs:82-119. *)
Definition at_server (e : env) (x : system) (ev : event) : option system :=
  match server_event e (y_server x) ev with
  | Some srv => Some (System (y_ends x) srv)
  | None => None
  end.

(** One event, [None] when it is not possible; client/src/lib.rs:44-52,
    client/src/backend/server.rs:97-153, server/src/main.rs:64-119. *)
Definition system_step (e : env) (x : system) (ev : system_event) : option system :=
  match ev with
  | YConnect ec reqs =>
    match server_event e (y_server x) EConnect with
    | Some srv => Some (System (y_ends x ++ [LinkEnd ec reqs (wire_new reqs) 0]) srv)
    | None => None
    end
  | YClient i ev =>
    match y_ends x !! i with
    | Some l =>
      if can_find (y_server x).1 i ev then
        match wire_step (l_env l) (l_reqs l) (l_wire l) ev with
        | Some w => Some (System (<[i := LinkEnd (l_env l) (l_reqs l) w (l_carried l)]> (y_ends x)) (y_server x))
        | None => None
        end
      else None
    | None => None
    end
  | YCarry i n =>
    match y_ends x !! i with
    | Some l =>
      if decide (l_carried l + n <= length (w_sent (l_wire l))) then
        match server_event e (y_server x) (EDeliver i (take n (drop (l_carried l) (w_sent (l_wire l))))) with
        | Some srv =>
          Some (System (<[i := LinkEnd (l_env l) (l_reqs l) (l_wire l) (l_carried l + n)]> (y_ends x)) srv)
        | None => None
        end
      else None
    | None => None
    end
  | YEnd i => at_server e x (EEnd i)
  | YFail i => at_server e x (EFail i)
  | YStep i => at_server e x (EStep i)
  end.

(** Any sequence of events; client/src/backend/server.rs:97-153, server/src/main.rs:64-119. *)
Fixpoint system_run (e : env) (evs : list system_event) (x : system) : option system :=
  match evs with
  | [] => Some x
  | ev :: r => match system_step e x ev with Some y => system_run e r y | None => None end
  end.

(** [ServerBackend::connect], client/src/backend/server.rs:103-115; [up] is whether the connection
    can be made. *)
Definition backend_connect (up : bool) : client_res () := if up then ROk () else RErr CEConnecting.

(** [Client::connect], client/src/lib.rs:44-52.  (!) The result is unwrapped. *)
Definition client_connect (up : bool) : client_res () :=
  match backend_connect up with
  | ROk x => ROk x
  | _ => RPanic
  end.
