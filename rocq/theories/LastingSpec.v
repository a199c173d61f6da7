(** What a call has left at a key stays there, for everyone, until another call changes it (C129). *)
From Verif Require Import Locks LockSpec LockScripts LockScriptSpec.
From Verif Require Import Bytes Value CommandId Request RequestSpec Response Metrics Prog Commands HistorySpec
  Scripts LinSpec MomentSpec Client ClientSpec ClientProps MemTasks MemTaskSpec SeenSpec WroteSpec LedgerSpec SpareSpec.
From stdpp Require Import gmap list.

(** Up to the time [n'], no other call that may change the key ran once this one had begun. *)
Definition undisturbed (sh : shards) (tasks : list task) (s0 : store) (sched : list (nat * list value))
  (a : nat * nat) (k : bytes) (n' : nat) : Prop :=
  forall m y b e c, m <= n' -> at_work sh tasks s0 (take m sched) = Some y ->
    b <> a -> task_call tasks b = Some (e, c) -> task_may_touch c k -> task_running tasks y b -> ahead tasks y a.

(** From the time [n] to the time [n'], whenever nobody is writing to the shard of the key, the key holds this. *)
Definition lasts (sh : shards) (tasks : list task) (s0 : store) (sched : list (nat * list value))
  (k : bytes) (n n' : nat) (o : option value) : Prop :=
  forall m p, n <= m -> m <= n' -> task_held sh tasks s0 sched k m p -> p = o.
