(** What a call that reports an error has changed (C130). *)
From Verif Require Import Locks LockSpec LockScripts LockScriptSpec.
From Verif Require Import Bytes Value CommandId Request RequestSpec Response Metrics Prog Commands HistorySpec
  Scripts LinSpec MomentSpec Client ClientSpec ClientProps MemTasks MemTaskSpec SeenSpec WroteSpec LedgerSpec SpareSpec.
From stdpp Require Import gmap list.

(** What a change of the key [k] can be, from [o] to [o'] and beginning after [n] steps, if the call [c], which is
    call [b] of the clients, reports an error: none at all, but for two.
    - A call that adds, or sets, may put the blank value there, having found nothing there before.
    - A Set may have taken the value away. *)
Definition mild (sh : shards) (scripts : list (list call)) (s0 : store) (sched : list (nat * list value))
  (b : nat * nat) (c : call) (k : bytes) (n : nat) (o o' : option value) : Prop :=
  o' = o \/
  match r_command (c_req c) with
  | CSet | CAppend | CIncrement | CDecrement | CIncrementBy | CDecrementBy =>
    arg (c_req c) 0 = Some k /\
    ((r_command (c_req c) = CSet /\ o' = None) \/
     exists t m, m <= n /\ noticed sh scripts s0 sched b k m None /\ begins_as (c_req c) t /\ o' = Some (blank t))
  | CDelete | CRename | CExists | CGet | CIs | CType | CLength | CKeys | CEcho | CStats => False
  end.

(** The same for tasks that share a memory client. *)
Definition task_mild (sh : shards) (tasks : list task) (s0 : store) (sched : list (nat * list value))
  (a : nat * nat) (c : client_call) (k : bytes) (n : nat) (o o' : option value) : Prop :=
  o' = o \/ (exists w, sets_to c k w /\ o' = None) \/
  (exists t m, opens_with c k t /\ m <= n /\ task_noticed sh tasks s0 sched a k m None /\ o' = Some (blank t)).

(** Between [n] and [n'] steps, all that is done with the key is by calls that fail: each call that may change it and
    has begun by then had returned before, or begins in between, is not a set, and reports an error in the end. *)
Definition only_failures (sh : shards) (tasks : list task) (s0 : store) (sched : list (nat * list value))
  (x : lsystem) (k : bytes) (n n' : nat) : Prop :=
  forall y z b e c, at_work sh tasks s0 (take n sched) = Some y -> at_work sh tasks s0 (take n' sched) = Some z ->
    task_call tasks b = Some (e, c) -> task_may_touch c k -> ~ ahead tasks z b ->
    (exists r, got tasks y b r) \/
    (ahead tasks y b /\ (forall w, ~ sets_to c k w) /\ exists err, got tasks x b (RErr (CERunningCommand err))).
