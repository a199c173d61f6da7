(** Calls that share one connection of the network client:
    client/src/backend/server.rs:97-153.

    Calls made on clones of one [Client] share the [ServerBackend] and run at the same time.
    The writing half of the socket is behind an asynchronous lock, which a call holds from the
    first to the last byte of its request.  A call can be dropped whenever it waits.

    Simplifications: a lock that is free may be given to any call that waits for it (the
    real one is fair); taking the reading half, the loop that reads and returning is one step.
    That loop is [Client.wait_loop]; it reads into an empty vector and so never waits while it
    holds the lock ([WireFacts.read_returns]). *)
From Verif Require Import Bytes Value RespContext Metrics Prog Client.
From stdpp Require Import list.
From Coq Require Import NArith.

(** Where a call is in [send_and_wait], client/src/backend/server.rs:117-153. *)
Inductive wire_call :=
| WQueued                      (* before the writer's lock, 118-120 *)
| WWriting (rest : bytes)      (* in [write_all], with what is left to write, 121-122 *)
| WReading                     (* before the reader's lock, 128 *)
| WReturned (r : client_res value)
| WDropped.                    (* the future was dropped before it was ready *)

(** The calls, what the socket was given, and which call holds the writer;
    client/src/backend/server.rs:97-101. *)
Record wire := Wire { w_calls : list wire_call; w_sent : bytes; w_holder : option nat }.

(** Calls that were made and not polled yet; client/src/backend/server.rs:117. *)
Definition wire_new (reqs : list bytes) : wire := Wire (map (fun _ => WQueued) reqs) [] None.

(** What can happen; client/src/backend/server.rs:117-153. *)
Inductive wire_event :=
| WLock (i : nat)            (* call [i] gets the writer, 118-120 *)
| WWrite (i : nat) (n : nat) (* the socket takes [n] bytes more, 121 *)
| WDone (i : nat)            (* [write_all] is ready, the guard is dropped, 121-123 *)
| WFail (i : nat)            (* writing fails, 123 *)
| WRead (i : nat) (arrives : bytes) (closed : bool)
                             (* the reader is free, and has this to read, 125-152 *)
| WDrop (i : nat).           (* the future of call [i] is dropped *)

(** One event, [None] when it is not possible; client/src/backend/server.rs:117-153.
    [reqs] are the bytes of the requests, [request.into().as_bytes()] (121). *)
Definition wire_step (e : env) (reqs : list bytes) (x : wire) (ev : wire_event) : option wire :=
  let '(Wire cs sent h) := x in
  match ev with
  | WLock i =>
    match cs !! i, h, reqs !! i with
    | Some WQueued, None, Some r => Some (Wire (<[i := WWriting r]> cs) sent (Some i))
    | _, _, _ => None
    end
  | WWrite i n =>
    match cs !! i with
    | Some (WWriting rest) =>
      if decide (1 <= n <= length rest)%nat
      then Some (Wire (<[i := WWriting (drop n rest)]> cs) (sent ++ take n rest) h)
      else None
    | _ => None
    end
  | WDone i =>
    match cs !! i with
    | Some (WWriting []) => Some (Wire (<[i := WReading]> cs) sent None)
    | _ => None
    end
  | WFail i =>
    match cs !! i with
    | Some (WWriting _) => Some (Wire (<[i := WReturned (RErr CEWritingMessage)]> cs) sent None)
    | _ => None
    end
  | WRead i arrives closed =>
    match cs !! i with
    | Some WReading =>
      let r := wait_loop (S (length arrives)) e resp_ctx_new [] arrives closed in
      Some (Wire (<[i := WReturned r]> cs) sent h)
    | _ => None
    end
  | WDrop i =>
    match cs !! i with
    | Some WQueued | Some WReading => Some (Wire (<[i := WDropped]> cs) sent h)
    | Some (WWriting _) => Some (Wire (<[i := WDropped]> cs) sent None)
    | _ => None
    end
  end.

(** Any sequence of events; client/src/backend/server.rs:117-153. *)
Fixpoint wire_run (e : env) (reqs : list bytes) (evs : list wire_event) (x : wire) : option wire :=
  match evs with
  | [] => Some x
  | ev :: r => match wire_step e reqs x ev with Some y => wire_run e reqs r y | None => None end
  end.
