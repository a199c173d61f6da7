(** What tasks that share a memory client read in the statistics (C119). *)
From Verif Require Import Bytes Value CommandId Request Metrics Prog Commands ConcSpec Locks LockSpec
  LockScripts LockScriptSpec Client ClientSpec MemTasks MemTaskSpec.
From stdpp Require Import gmap list.
From Coq Require Import NArith ZArith.

(** The call succeeded; the engine refused it. *)
Definition done_well (tasks : list task) (x : lsystem) (b : nat * nat) : Prop :=
  exists v, got tasks x b (ROk v).
Definition done_badly (tasks : list task) (x : lsystem) (b : nat * nat) : Prop :=
  exists err, got tasks x b (RErr (CERunningCommand err)).

(** The call makes a request: the client does not refuse it itself. *)
Definition makes_request (tasks : list task) (b : nat * nat) : Prop :=
  exists e c, task_call tasks b = Some (e, c) /\ refused c = None.

(** [n] lies between what was over before call [a] began and what had begun before it returned: of the calls
    of which [yes] holds, at least those that were earlier than [a], and at most those that were not later
    and of which [no] does not hold. *)
Definition count_between (sh : shards) (tasks : list task) (s0 : store) (sched : list (nat * list value))
  (yes no : nat * nat -> Prop) (a : nat * nat) (n0 n : N) : Prop :=
  (forall l, NoDup l -> (forall b, b ∈ l -> earlier sh tasks s0 sched b a /\ yes b) -> (n0 + lenN l <= n)%N) /\
  (forall l, (forall b, makes_request tasks b -> b <> a -> ~ earlier sh tasks s0 sched a b -> ~ no b -> b ∈ l) ->
     (n <= n0 + lenN l)%N).
