(** The network server: server/src/main.rs.

    Every connection is a task of its own; all share one engine.  A task waits for bytes,
    parses, dispatches (in the steps of [Prog], interleaved with the other tasks) and
    answers.  The environment delivers bytes, closes the sending side, lets an operation on
    a socket fail, and schedules the tasks.

    The configuration, binding, and what [main] does when accepting a connection fails are
    in [Process].  Not modelled: logging.  All tasks use the same [env], that is the same
    build and the same map iteration order. *)
From Verif Require Import Bytes Value CommandId Request ReqContext Response Metrics Prog Commands.
From stdpp Require Import list.
From Coq Require Import NArith.

(** What the task of a connection is doing; server/src/main.rs:82-119. *)
Inductive task :=
| TReading             (* waiting in [read_until] *)
| TServing (p : prog)  (* in [hop.dispatch], then about to write the answer *)
| TClosed              (* returned *)
| TCrashed.            (* panicked; [task::spawn] contains the panic *)

(** A connection: the locals of [handle_socket_inner] (server/src/main.rs:83-88), the bytes
    received but not yet read (the socket's and the [BufReader]'s buffers), whether the peer
    has closed its sending side, and all that has been written to the peer. *)
Record conn := Conn {
  k_unread : bytes;
  k_eof : bool;
  k_size : N;          (* bytes read by the current [read_until] *)
  k_input : bytes;
  k_ctx : req_ctx;
  k_sent : bytes;
  k_task : task
}.

(** server/src/main.rs:83-88 *)
Definition conn_new : conn := Conn [] false 0 [] req_ctx_new [] TReading.

(** [b'\n'], server/src/main.rs:90. *)
Definition newline : byte := n2b 10.

(** Up to and including the first newline, and the rest;
    tokio's [read_until], server/src/main.rs:90. *)
Fixpoint cut_line (bs : bytes) : option (bytes * bytes) :=
  match bs with
  | [] => None
  | b :: r =>
    if (b2n b =? 10)%N then Some ([b], r)
    else match cut_line r with
         | Some (l, rest) => Some (b :: l, rest)
         | None => None
         end
  end.

(** [read_until] has returned a positive size: server/src/main.rs:96-116 up to the end of
    the iteration, or up to [hop.dispatch]. *)
Definition handle (e : env) (unread : bytes) (eof : bool) (input : bytes) (x : req_ctx)
  (sent : bytes) : conn :=
  match req_feed x input with
  | (x', FRequest req) => Conn unread eof 0 input x' sent (TServing (dispatch_prog e req []))
  | (x', FNeedMore) => Conn unread eof 0 input x' sent TReading
  | (x', FError err) => Conn unread eof 0 [] x' (sent ++ write_parse_error [] err) TReading
  | (x', FPanic) | (x', FFuel) => Conn unread eof 0 input x' sent TCrashed
  end.

(** [dispatch] has returned: server/src/main.rs:97-104, 113-115. *)
Definition answer (c : conn) (r : cres) : conn :=
  match r with
  | COk resp => Conn (k_unread c) (k_eof c) 0 [] (k_ctx c) (k_sent c ++ resp) TReading
  | CErr err resp =>
    Conn (k_unread c) (k_eof c) 0 [] (k_ctx c) (k_sent c ++ write_dispatch_error resp err)
      TReading
  | CPanic => Conn (k_unread c) (k_eof c) 0 (k_input c) (k_ctx c) (k_sent c) TCrashed
  end.

(** A step of the task, [None] when it waits or has ended.  In [TReading] it is one round of
    tokio's [read_until(b'\n', &mut input)] (server/src/main.rs:90): take what is there up to
    and including the first newline; return when there was one or when the peer has closed
    and nothing is left.  A size of zero ends the loop (91-94). *)
Definition conn_step (e : env) (c : conn) (s : store) : option (conn * store) :=
  match k_task c with
  | TReading =>
    match cut_line (k_unread c) with
    | Some (l, rest) => Some (handle e rest (k_eof c) (k_input c ++ l) (k_ctx c) (k_sent c), s)
    | None =>
      match k_unread c with
      | [] =>
        if k_eof c then
          if (k_size c =? 0)%N
          then Some (Conn [] true 0 (k_input c) (k_ctx c) (k_sent c) TClosed, s)
          else Some (handle e [] true (k_input c) (k_ctx c) (k_sent c), s)
        else None
      | bs =>
        Some (Conn [] (k_eof c) (k_size c + lenN bs)%N (k_input c ++ bs) (k_ctx c) (k_sent c)
                TReading, s)
      end
    end
  | TServing p =>
    match p with
    | PRet r => Some (answer c r, s)
    | _ =>
      match pstep p s with
      | Some (p', s') =>
        Some (Conn (k_unread c) (k_eof c) (k_size c) (k_input c) (k_ctx c) (k_sent c)
                (TServing p'), s')
      | None => None
      end
    end
  | TClosed | TCrashed => None
  end.

(** What can happen to the server; server/src/main.rs:64-66,82-119. *)
Inductive event :=
| EConnect                       (* server/src/main.rs:64-66 *)
| EDeliver (i : nat) (bs : bytes)  (* bytes arrive on connection [i] *)
| EEnd (i : nat)                 (* its peer closes the sending side *)
| EFail (i : nat)                (* reading from or writing to it fails (90, 113) *)
| EStep (i : nat).               (* its task makes a step *)

(** The connections and the shared engine; server/src/main.rs:58-66. *)
Definition server : Type := list conn * store.

(** [None] when the event is not possible; server/src/main.rs:64-119. *)
Definition server_event (e : env) (x : server) (ev : event) : option server :=
  let '(cs, s) := x in
  match ev with
  | EConnect => Some (cs ++ [conn_new], s)
  | EDeliver i bs =>
    match cs !! i with
    | Some c =>
      if k_eof c then None
      else Some (<[i := Conn (k_unread c ++ bs) false (k_size c) (k_input c) (k_ctx c)
                          (k_sent c) (k_task c)]> cs, s)
    | None => None
    end
  | EEnd i =>
    match cs !! i with
    | Some c =>
      Some (<[i := Conn (k_unread c) true (k_size c) (k_input c) (k_ctx c) (k_sent c)
                     (k_task c)]> cs, s)
    | None => None
    end
  | EFail i =>
    match cs !! i with
    | Some c =>
      match k_task c with
      | TReading | TServing (PRet (COk _)) | TServing (PRet (CErr _ _)) =>
        Some (<[i := Conn (k_unread c) (k_eof c) (k_size c) (k_input c) (k_ctx c) (k_sent c)
                       TClosed]> cs, s)
      | _ => None
      end
    | None => None
    end
  | EStep i =>
    match cs !! i with
    | Some c =>
      match conn_step e c s with
      | Some (c', s') => Some (<[i := c']> cs, s')
      | None => None
      end
    | None => None
    end
  end.

(** Any sequence of events, server/src/main.rs:64-119. *)
Fixpoint server_run (e : env) (evs : list event) (x : server) : option server :=
  match evs with
  | [] => Some x
  | ev :: r => match server_event e x ev with Some y => server_run e r y | None => None end
  end.

(** [main] with its new engine, server/src/main.rs:58. *)
Definition server_new : server := ([], store_new).
