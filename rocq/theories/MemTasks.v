(** Tasks that share one memory client.

    Requests keep an [Arc] of the backend, and the backend's methods take [&self]
    (client/src/lib.rs:22-31,106-108, client/src/backend/memory.rs:84-117), so any number of threads can
    use one memory client at the same time.  A method builds its request, dispatches it to the one
    [Hop] and takes the response apart; only the dispatch touches shared data.  A task is therefore
    a client of [LockScripts] whose calls are the requests of its methods; a method that refuses its
    arguments makes no request and no step.  Simplification, as in [Scripts]: a task whose call
    panicked goes on. *)
From Verif Require Import Bytes Utf8 Float64 Value CommandId Request Response RespContext
  Metrics Prog Commands HistorySpec Client ClientSpec ClientProps.
From stdpp Require Import gmap list.

(** The calls a task makes, one after the other. *)
Notation task := (list (env * client_call)).

(** The response taken apart, client/src/backend/memory.rs:98-111; see [mem_send]. *)
Definition received (e : env) (r : cres) : client_res value :=
  match r with
  | CErr source _ => RErr (CERunningCommand source)
  | CPanic => RPanic
  | COk resp =>
    match (resp_feed (debug e) resp_ctx_new resp).2 with
    | PConcluded (RValue v) => ROk v
    | PConcluded (RDispatchError source) => RErr (CEDispatching source)
    | PConcluded (RParseError source) => RErr (CEBadRequest source)
    | PReadBytes _ | PError _ | PPanic | PFuel => RPanic
    end
  end.

(** What the method returns when [dispatch] has returned [r];
    e.g. client/src/backend/memory.rs:187-190. *)
Definition finish (e : env) (c : client_call) (r : cres) : client_res reply :=
  rbind (received e r) (opened (@or_panic) c).

(** What it returns when the request is not made; e.g. client/src/backend/memory.rs:128. *)
Definition not_sent {A B} (r : client_res A) : client_res B :=
  match r with ROk _ => RNever | RErr err => RErr err | RPanic => RPanic | RNever => RNever end.

(** The dispatches of a task, client/src/backend/memory.rs:95-98. *)
Fixpoint dispatches (h : task) : list call :=
  match h with
  | [] => []
  | (e, c) :: h =>
    match build e c with
    | ROk b => Call e (into_request b) [] :: dispatches h
    | _ => dispatches h
    end
  end.

(** What the methods have returned when the dispatches have returned [rs]: up to the first whose
    dispatch has not returned; client/src/backend/memory.rs:95-112. *)
Fixpoint results (h : task) (rs : list cres) : list (client_res reply) :=
  match h with
  | [] => []
  | (e, c) :: h =>
    match build e c with
    | ROk b => match rs with [] => [] | r :: rs => finish e c r :: results h rs end
    | r => not_sent r :: results h rs
    end
  end.
