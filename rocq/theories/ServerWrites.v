(** The network server with the writing of answers spread over time: server/src/main.rs:113.

    In [Server] an answer reaches the peer the moment the task has it.  In the code
    [writer.write_all(&resp).await] hands it to the socket piece by piece, as fast as the peer
    takes it, and may fail after some of the pieces.  Meanwhile the task does nothing else and
    the other tasks go on.  Here a connection has, besides what [Server] keeps, what is left of
    the answer being written and what the socket has taken. *)
From Verif Require Import Bytes Value CommandId Request ReqContext Response Metrics Prog Commands
  Server.
From stdpp Require Import list.
From Coq Require Import NArith.

(** [k_sent] of [l_conn] is everything given to [write_all] so far; server/src/main.rs:82-119. *)
Record link := Link {
  l_conn : conn;
  l_out : bytes;    (* what [write_all] has still to hand over (113) *)
  l_wire : bytes    (* what the socket has taken *)
}.

(** What can happen; server/src/main.rs:64-66,82-119. *)
Inductive link_event :=
| NConnect                         (* server/src/main.rs:64-66 *)
| NDeliver (i : nat) (bs : bytes)  (* bytes arrive on connection [i] *)
| NEnd (i : nat)                   (* its peer closes the sending side *)
| NStep (i : nat)                  (* its task makes a step outside of [write_all] *)
| NWrite (i : nat) (n : nat)       (* its socket takes [n] more bytes of the answer (113) *)
| NFail (i : nat).                 (* reading from (90) or writing to (113) it fails *)

(** The connections and the shared engine; server/src/main.rs:58-66. *)
Definition links : Type := list link * store.

(** The connection as the code leaves the loop: the [?] of server/src/main.rs:113, or [read_until]
    not being [Ok] (90). *)
Definition hung_up (c : conn) : conn :=
  Conn (k_unread c) (k_eof c) (k_size c) (k_input c) (k_ctx c) (k_sent c) TClosed.

(** [None] when the event is not possible; server/src/main.rs:64-119.  While an answer is being
    written only [NWrite] and [NFail] move the task; [write_all] is over when nothing is left. *)
Definition links_event (e : env) (x : links) (ev : link_event) : option links :=
  let '(ls, s) := x in
  match ev with
  | NConnect => Some (ls ++ [Link conn_new [] []], s)
  | NDeliver i bs =>
    match ls !! i with
    | Some l =>
      let c := l_conn l in
      if k_eof c then None
      else Some (<[i := Link (Conn (k_unread c ++ bs) false (k_size c) (k_input c) (k_ctx c)
                                (k_sent c) (k_task c)) (l_out l) (l_wire l)]> ls, s)
    | None => None
    end
  | NEnd i =>
    match ls !! i with
    | Some l =>
      let c := l_conn l in
      Some (<[i := Link (Conn (k_unread c) true (k_size c) (k_input c) (k_ctx c) (k_sent c)
                           (k_task c)) (l_out l) (l_wire l)]> ls, s)
    | None => None
    end
  | NStep i =>
    match ls !! i with
    | Some l =>
      match l_out l with
      | [] =>
        match conn_step e (l_conn l) s with
        | Some (c', s') =>
          (* what the step gave to [write_all] *)
          Some (<[i := Link c' (drop (length (k_sent (l_conn l))) (k_sent c')) (l_wire l)]> ls, s')
        | None => None
        end
      | _ => None
      end
    | None => None
    end
  | NWrite i n =>
    match ls !! i with
    | Some l =>
      if (1 <=? n)%nat && (n <=? length (l_out l))%nat
      then Some (<[i := Link (l_conn l) (drop n (l_out l)) (l_wire l ++ take n (l_out l))]> ls, s)
      else None
    | None => None
    end
  | NFail i =>
    match ls !! i with
    | Some l =>
      match l_out l, k_task (l_conn l) with
      | [], TReading => Some (<[i := Link (hung_up (l_conn l)) [] (l_wire l)]> ls, s)
      | [], _ => None
      | _, _ => Some (<[i := Link (hung_up (l_conn l)) [] (l_wire l)]> ls, s)
      end
    | None => None
    end
  end.

(** Any sequence of events, server/src/main.rs:64-119. *)
Fixpoint links_run (e : env) (evs : list link_event) (x : links) : option links :=
  match evs with
  | [] => Some x
  | ev :: r => match links_event e x ev with Some y => links_run e r y | None => None end
  end.
