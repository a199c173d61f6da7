(** What tasks that share one memory client can rely on (C95 - C97). *)
From Verif Require Import Bytes Utf8 Float64 Value CommandId Request Response RespContext
  Metrics Prog Commands EngineSpec WireSpec RequestSpec HistorySpec ConcSpec Scripts LinSpec
  Locks LockSpec LockScripts LockScriptSpec Client ClientSpec ClientProps MemTasks.
From stdpp Require Import gmap list.
From Coq Require Import NArith ZArith.

(** Call [j] of task [i]. *)
Definition task_call (tasks : list task) (a : nat * nat) : option (env * client_call) :=
  tasks !! a.1 ≫= fun h => h !! a.2.
Definition made_by_one (tasks : list task) (e : env) (c : client_call) : Prop :=
  exists a, task_call tasks a = Some (e, c).

(** The keys a call looks at or changes, and those it may change. *)
Definition touches (c : client_call) (k : bytes) : Prop :=
  match c with KEcho _ => False | _ => k ∈ named c end.
Definition changes (c : client_call) (k : bytes) : Prop :=
  match c with
  | KEcho _ | KExists _ | KGet _ | KGetTyped _ _ | KIs _ _ | KKeyType _ | KKeys _ | KLength _ _
  | KStats => False
  | _ => k ∈ named c
  end.

(** Requests have at most 255 arguments (C04), and the iteration order of a map or set is an order
    of its elements. *)
Definition sendable (tasks : list task) : Prop :=
  forall e c, made_by_one tasks e c -> env_ok e /\ (sends c <= 255)%N.

(** The counters cannot overflow. *)
Definition tasks_fit (tasks : list task) (s0 : store) : Prop :=
  forall m, (count s0 m + lenN (concat tasks) < 2 ^ 63)%N.

(** No other task may change a key that task [i] uses, and task [i] does not ask for statistics. *)
Definition own_keys (tasks : list task) (i : nat) : Prop :=
  forall j e c, task_call tasks (i, j) = Some (e, c) ->
  c <> KStats /\
  forall i' j' e' c' k, task_call tasks (i', j') = Some (e', c') -> i' <> i ->
    touches c k -> ~ changes c' k.

(** The tasks at work: every state that a schedule leads to, for any assignment of keys to shards.
    A schedule also says through which values an update in place passes. *)
Definition at_work (sh : shards) (tasks : list task) (s0 : store) (sched : list (nat * list value))
  : option lsystem := lsys_run sh sched (lbegin (map dispatches tasks) s0).

(** Call [a] has returned [r]; call [a] has not begun. *)
Definition got (tasks : list task) (x : lsystem) (a : nat * nat) (r : client_res reply) : Prop :=
  exists h cl, tasks !! a.1 = Some h /\ x.1 !! a.1 = Some cl /\
    results h (lc_done cl) !! a.2 = Some r.
Definition ahead (tasks : list task) (x : lsystem) (a : nat * nat) : Prop :=
  exists h cl, tasks !! a.1 = Some h /\ x.1 !! a.1 = Some cl /\
    lbegun cl <= length (dispatches (take a.2 h)).

(** Call [a] had returned before call [b] began. *)
Definition earlier (sh : shards) (tasks : list task) (s0 : store)
  (sched : list (nat * list value)) (a b : nat * nat) : Prop :=
  exists n x r, n <= length sched /\ at_work sh tasks s0 (take n sched) = Some x /\
    got tasks x a r /\ ahead tasks x b.

(** The call adds one to an integer; the call appends [l]. *)
Definition counts_one (c : client_call) (k : bytes) : Prop :=
  c = KIncrement k None \/ c = KIncrement k (Some KTInteger) \/ c = KIncrementBy k (VInteger 1) \/
  c = KIncrementInt k None \/ c = KIncrementInt k (Some 1%Z).
