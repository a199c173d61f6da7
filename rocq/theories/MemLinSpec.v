(** What it means that calls of a shared memory client about one key take effect one after the
    other (C102). *)
From Verif Require Import Bytes Utf8 Float64 Value CommandId Request Response RespContext
  Metrics Prog Commands EngineSpec WireSpec RequestSpec HistorySpec ConcSpec Scripts LinSpec
  Locks LockSpec LockScripts LockScriptSpec Client ClientSpec ClientProps MemTasks MemTaskSpec.
From stdpp Require Import gmap list.
From Coq Require Import NArith ZArith.

(** The call looks at [k] or deletes it; the call adds to what is at [k]. *)
Definition looks (c : client_call) (k : bytes) : Prop :=
  match c with
  | KGet k' | KGetTyped k' _ | KKeyType k' | KLength k' (Some _) | KDelete k' => k' = k
  | KExists l | KIs _ l => l = [k]
  | _ => False
  end.
Definition extends (c : client_call) (k : bytes) : Prop :=
  match c with
  | KAppend k' _ | KAppendTyped k' _
  | KIncrement k' _ | KIncrementBy k' _ | KIncrementInt k' _ | KIncrementFloat k' _
  | KDecrement k' _ | KDecrementBy k' _ | KDecrementInt k' _ | KDecrementFloat k' _ => k' = k
  | _ => False
  end.
Definition on_key (k : bytes) (c : client_call) : Prop := looks c k \/ extends c k.

(** Calls that may change [k] are of these kinds; and if some call adds to [k], then [k] is there at
    the start and no call deletes it.  What else is called does not matter. *)
Definition plain_at (k : bytes) (tasks : list task) (s0 : store) : Prop :=
  forall e c, made_by_one tasks e c ->
  (on_key k c \/ ~ changes c k) /\
  (extends c k -> is_Some (st_keys s0 !! k) /\ forall e', ~ made_by_one tasks e' (KDelete k)).

(** [l] lists calls about [k] that have begun, in this order: had one task made them alone, it would
    have left what is now at [k], and got what those of them that have returned did. *)
Definition as_if_alone (sh : shards) (k : bytes) (tasks : list task) (s0 : store)
  (l : list (nat * nat)) (h : task) (x : lsystem) : Prop :=
  NoDup l /\
  Forall2 (fun a ec => task_call tasks a = Some ec /\ on_key k ec.2 /\ refused ec.2 = None /\
    ~ ahead tasks x a) l h /\
  (unlocked sh x k -> st_keys x.2 !! k = st_keys (mem_calls h s0).1 !! k) /\
  forall a e c r, task_call tasks a = Some (e, c) -> on_key k c -> got tasks x a r ->
    match refused c with
    | Some err => r = RErr err
    | None => exists p, l !! p = Some a /\ (mem_calls h s0).2 !! p = Some r
    end.
