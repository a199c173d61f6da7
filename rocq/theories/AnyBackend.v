(** Requests on a client whose backend is any implementation of the [Backend] trait:
    client/src/backend/mod.rs:18-107 is public, [Client<B>] and every request is generic in [B], and
    a backend's future may be pending.  [Fluent] has the methods that build a request; here is what
    polling and dropping it do when the backend can be anything. *)
From Coq Require Import String.
From Verif Require Import Bytes Float64 Value Metrics Prog Commands HistorySpec Client ClientSpec Futures Fluent.
From stdpp Require Import gmap list.
From Coq Require Import NArith ZArith.

(** What polling the future of a backend's method gives: [Poll::Pending], [Poll::Ready] or a panic.
    The future is over after the last two; what its own drop does then is part of that poll.
    client/src/backend/mod.rs:22-28 *)
Inductive answer (F E : Type) := Later (f : F) | Now (r : reply + E) | Dies.
Arguments Later {F E} _.
Arguments Now {F E} _.
Arguments Dies {F E}.

(** A backend.  [W]: all that it reads and writes, the rest of the world included; [F]: its futures;
    [E]: [Self::Error].  [b_begin w c] calls the method that [c] names and gives the future
    ([None]: the call panics); [b_poll] polls it, [e] standing for the [Context] and what differs
    between runs; [b_drop] drops it before it is ready.  client/src/backend/mod.rs:18-107 *)
Record backend (W F E : Type) := Backend {
  b_begin : W -> client_call -> W * option F;
  b_poll : env -> W -> F -> W * answer F E;
  b_drop : W -> F -> W }.
Arguments Backend {W F E} _ _ _.
Arguments b_begin {W F E} _ _ _.
Arguments b_poll {W F E} _ _ _ _.
Arguments b_drop {W F E} _ _ _.

(** The method of the backend called by the block that [poll] boxes, with its arguments:
    client/src/request/get/get_bytes.rs:44, set/set_boolean.rs:47, append/append_bytes.rs:47,
    increment/increment_int.rs:53, increment/increment_float.rs:53, decrement/decrement_int.rs:53,
    decrement/decrement_float.rs:53; the untyped ones call their own, e.g.
    client/src/request/length.rs:89.  The amounts are 1 at first: increment_int.rs:26. *)
Definition trait_call (c : client_call) : client_call :=
  match c with
  | KGetTyped k _ => KGet k
  | KSetTyped k v => KSet k v
  | KAppendTyped k v => KAppend k v
  | KIncrementInt k n => KIncrementBy k (VInteger (default 1%Z n))
  | KIncrementFloat k x => KIncrementBy k (VFloat (default f64_one x))
  | KDecrementInt k n => KDecrementBy k (VInteger (default 1%Z n))
  | KDecrementFloat k x => KDecrementBy k (VFloat (default f64_one x))
  | c => c
  end.

(** [match value { Value::Integer(int) => Ok(int), _ => unreachable!() }]; [None] is the panic.
    client/src/request/get/get_bytes.rs:46-49, increment/increment_int.rs:55-58 and so on.
    [set] and [append] expect the kind they wrote: set/set_boolean.rs:49-52. *)
Definition expect (t : key_type) (r : reply) : option reply :=
  match r with
  | RpValue v => match of_kind t v with ROk v => Some (RpValue v) | _ => None end
  | r => Some r
  end.
(** Which call expects what; client/src/request/get/get_bytes.rs:46-49, set/set_boolean.rs:49-52,
    increment/increment_int.rs:55-58 and so on. *)
Definition opened (c : client_call) (r : reply) : option reply :=
  match c with
  | KGetTyped _ t => expect t r
  | KSetTyped _ v | KAppendTyped _ v => expect (kind v) r
  | KIncrementInt _ _ | KDecrementInt _ _ => expect KTInteger r
  | KIncrementFloat _ _ | KDecrementFloat _ _ => expect KTFloat r
  | _ => Some r
  end.

(** The boxed [async move] block: not yet run, waiting for the backend's future, returned, or left by
    a panic; client/src/request/set/set_boolean.rs:45-53. *)
Inductive ablock (F : Type) := BFresh (c : client_call) | BWaits (c : client_call) (f : F) | BOver | BPoisoned.
Arguments BFresh {F} _.
Arguments BWaits {F} _ _.
Arguments BOver {F}.
Arguments BPoisoned {F}.

(** What a program sees; client/src/request/set/set_boolean.rs:39, exists.rs:81-94. *)
Inductive view (E : Type) := WNothing | WPending | WReady (r : reply + E) | WPanic | WRefused (err : config_error).
Arguments WNothing {E}.
Arguments WPending {E}.
Arguments WReady {E} _.
Arguments WPanic {E}.
Arguments WRefused {E} _.

(** The rest of the block from [.await] on, client/src/request/set/set_boolean.rs:47-52. *)
Definition await {W F E} (B : backend W F E) (e : env) (w : W) (c : client_call) (f : F)
  : W * ablock F * view E :=
  match b_poll B e w f with
  | (w, Later f) => (w, BWaits c f, WPending)
  | (w, Now (inr err)) => (w, BOver, WReady (inr err))
  | (w, Now (inl r)) =>
    match opened c r with
    | Some r => (w, BOver, WReady (inl r))
    | None => (w, BPoisoned, WPanic)
    end
  | (w, Dies) => (w, BPoisoned, WPanic)
  end.

(** Resuming the block; a finished or poisoned one panics, client/src/request/set/set_boolean.rs:56. *)
Definition resume_block {W F E} (B : backend W F E) (e : env) (w : W) (b : ablock F)
  : W * ablock F * view E :=
  match b with
  | BFresh c =>
    match b_begin B w (trait_call c) with
    | (w, Some f) => await B e w c f
    | (w, None) => (w, BPoisoned, WPanic)
    end
  | BWaits c f => await B e w c f
  | BOver => (w, BOver, WPanic)
  | BPoisoned => (w, BPoisoned, WPanic)
  end.

(** Dropping the boxed block drops the future it is waiting for; the others own none.
    client/src/request/set/set_boolean.rs:16-21 *)
Definition drop_block {W F E} (B : backend W F E) (w : W) (b : option (ablock F)) : W :=
  match b with Some (BWaits _ f) => b_drop B w f | _ => w end.

(** A request with its [fut] field; client/src/request/set/set_boolean.rs:16-21.
    The other fields are in [hd_object]; its [rq_fut] only tells that there is a future, which
    [hd_block] is. *)
Record held (F : Type) := Held { hd_object : object; hd_block : option (ablock F) }.
Arguments Held {F} _ _.
Arguments hd_object {F} _.
Arguments hd_block {F} _.

(** [poll], client/src/request/set/set_boolean.rs:39-57: box the block if there is none, taking the
    backend and the arguments, then resume it. *)
Definition poll_held {W F E} (B : backend W F E) (e : env) (w : W) (ty : rtype) (q : request)
  (b : option (ablock F)) : W * held F * view E :=
  match b with
  | None =>
    match rq_args q with
    | None => (w, Held (OFuture ty q) None, WPanic)
    | Some c =>
      let '(w, b, x) := resume_block B e w (BFresh c) in
      (w, Held (OFuture ty (Request None (Some Returned))) (Some b), x)
    end
  | Some b => let '(w, b, x) := resume_block B e w b in (w, Held (OFuture ty q) (Some b), x)
  end.

(** A program, its requests and its client, client/src/lib.rs:23-31. *)
Record anyprog (W F E : Type) := AnyProg { ap_world : W; ap_held : list (option (held F));
                                           ap_seen : list (view E) }.
Arguments AnyProg {W F E} _ _ _.
Arguments ap_world {W F E} _.
Arguments ap_held {W F E} _.
Arguments ap_seen {W F E} _.

(** One event, as in [fluent_step]: client/src/lib.rs:107-465, client/src/request/mod.rs:1-33.
    Methods take the request by value: one that panics or refuses drops it, future and all. *)
Definition any_step {W F E} (B : backend W F E) (p : anyprog W F E) (ev : event) : anyprog W F E :=
  let '(AnyProg w os out) := p in
  match ev with
  | FStart n => AnyProg w (os ++ [Some (Held (start n) None)]) (out ++ [WNothing])
  | FCall i m =>
    match os !! i with
    | Some (Some (Held o b)) =>
      match call_method o m with
      | Gives o => AnyProg w (<[i := Some (Held o b)]> os) (out ++ [WNothing])
      | Refuses err => AnyProg (drop_block B w b) (<[i := None]> os) (out ++ [WRefused err])
      | Blows => AnyProg (drop_block B w b) (<[i := None]> os) (out ++ [WPanic])
      | NoMethod => AnyProg w os (out ++ [WNothing])
      end
    | _ => AnyProg w os (out ++ [WNothing])
    end
  | FPoll e i =>
    match os !! i with
    | Some (Some (Held (OFuture ty q) b)) =>
      let '(w, h, x) := poll_held B e w ty q b in
      AnyProg w (<[i := Some h]> os) (out ++ [x])
    | _ => AnyProg w os (out ++ [WNothing])
    end
  | FDrop i =>
    match os !! i with
    | Some (Some h) => AnyProg (drop_block B w (hd_block h)) (<[i := None]> os) (out ++ [WNothing])
    | _ => AnyProg w os (out ++ [WNothing])
    end
  end.

(** A whole program, client/src/lib.rs:107-465. *)
Definition any_run {W F E} (B : backend W F E) (h : list event) (w : W) : anyprog W F E :=
  fold_left (any_step B) h (AnyProg w [] []).

(** The memory backend as one of them.  Its methods are [async] too and do all their work at the first
    poll, which is never pending: no [await] in client/src/backend/memory.rs:115-352. *)
Definition memory_backend : backend store client_call client_error :=
  Backend (fun s c => (s, Some c))
    (fun e s c => let '(s, r) := mem_call e s c in
      (s, match r with ROk r => Now (inl r) | RErr err => Now (inr err) | _ => Dies end))
    (fun s _ => s).
