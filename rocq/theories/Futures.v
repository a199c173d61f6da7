(** Requests as futures: client/src/request/**.
    Each request type is a struct holding the backend, the arguments and an optional boxed future,
    and each [poll] is the same code up to the backend method called:
    client/src/request/set/set_boolean.rs:39-57, client/src/request/get/mod.rs:277-289,
    client/src/request/increment/mod.rs:47-61, client/src/request/rename.rs:44-59 and so on.
    The backend is the memory backend, whose methods never suspend: no [await] in
    client/src/backend/memory.rs:115-352, so the boxed future is ready when first polled. *)
From Coq Require Import String.
From Verif Require Import Bytes Value Metrics Prog Commands HistorySpec Client ClientSpec.
From stdpp Require Import gmap list.

(** The [async move] block boxed by [poll]: not yet run, returned, or left by a panic.  It owns the
    arguments; client/src/request/set/set_boolean.rs:45-53. *)
Inductive boxed := Unresumed (c : client_call) | Returned | Poisoned.

(** A request: its backend and arguments, all [Some] when made and all taken together, and [fut];
    client/src/request/set/set_boolean.rs:16-21. *)
Record request := Request { rq_args : option client_call; rq_fut : option boxed }.

(** [new], client/src/request/set/set_boolean.rs:24-31: nothing is sent. *)
Definition request_new (c : client_call) : request := Request (Some c) None.

(** What a poll does: it is ready with a result, or it panics.  With the memory backend it is
    never pending; [Poll], client/src/request/set/set_boolean.rs:39-57. *)
Inductive polled := PollReady (r : client_res reply) | PollPanics.

(** Resuming the block: the compiler makes a finished block panic when resumed
    ("`async fn` resumed after completion", "`async fn` resumed after panicking");
    client/src/request/set/set_boolean.rs:56. *)
Definition resume (e : env) (s : store) (b : boxed) : store * boxed * polled :=
  match b with
  | Unresumed c =>
    let '(s, r) := mem_call e s c in
    match r with
    | RPanic => (s, Poisoned, PollPanics)
    | r => (s, Returned, PollReady r)
    end
  | Returned => (s, Returned, PollPanics)
  | Poisoned => (s, Poisoned, PollPanics)
  end.

(** [poll], client/src/request/set/set_boolean.rs:39-57: box the block if there is none, taking
    the backend and the arguments, then resume it. *)
Definition poll (e : env) (s : store) (q : request) : store * request * polled :=
  match rq_fut q with
  | None =>
    match rq_args q with
    | None => (s, q, PollPanics)
    | Some c =>
      let '(s, b, r) := resume e s (Unresumed c) in (s, Request None (Some b), r)
    end
  | Some b => let '(s, b, r) := resume e s b in (s, Request (rq_args q) (Some b), r)
  end.

(** What a program does with its requests.  Requests are numbered in the order in which they are
    made; a dropped one is gone.  [Drop] of every field runs no engine code:
    client/src/request/set/set_boolean.rs:16-21. *)
Inductive event := EMake (c : client_call) | EPoll (e : env) (i : nat) | EDrop (i : nat).

(** What the program sees at an event: the [Poll] of client/src/request/set/set_boolean.rs:39-57. *)
Inductive seen := SNothing | SReady (r : client_res reply) | SPanic.

(** A program with its requests, all on one memory client; client/src/lib.rs:73-79. *)
Record program := Program { pr_store : store; pr_requests : list (option request);
                            pr_seen : list seen }.

(** One event.  Polling or dropping a request not made yet or dropped already, which the borrow
    checker rules out, does nothing; client/src/request/set/set_boolean.rs:39-57. *)
Definition event_step (p : program) (ev : event) : program :=
  let '(Program s qs out) := p in
  match ev with
  | EMake c => Program s (qs ++ [Some (request_new c)]) (out ++ [SNothing])
  | EPoll e i =>
    match qs !! i with
    | Some (Some q) =>
      let '(s, q, r) := poll e s q in
      Program s (<[i := Some q]> qs)
        (out ++ [match r with PollReady r => SReady r | PollPanics => SPanic end])
    | _ => Program s qs (out ++ [SNothing])
    end
  | EDrop i => Program s (<[i := None]> qs) (out ++ [SNothing])
  end.

(** A whole program, client/src/request/set/set_boolean.rs:39-57. *)
Definition events (h : list event) (s : store) : program :=
  fold_left event_step h (Program s [] []).
