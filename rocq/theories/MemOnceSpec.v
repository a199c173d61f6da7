(** Tasks that share a memory client and add to a key while others set it, delete it or rename it away (C121). *)
From Verif Require Import Locks LockSpec LockScripts LockScriptSpec.
From Verif Require Import Bytes Value CommandId Client ClientSpec MemTasks MemTaskSpec MemAppendSpec MemForwardSpec
  MemRaceSpec OnceSpec MemStartSpec.
From stdpp Require Import list.
From Coq Require Import ZArith.

(** Call [b] of the tasks sets the key to [v]; deletes it; renames it to another name; and the client does not refuse to. *)
Definition task_puts (tasks : list task) (k : bytes) (b : nat * nat) (v : value) : Prop :=
  exists e c, task_call tasks b = Some (e, c) /\ sets_value c k v /\ refused c = None.
Definition task_dels (tasks : list task) (k : bytes) (b : nat * nat) : Prop :=
  exists e, task_call tasks b = Some (e, KDelete k) /\ refused (KDelete k) = None.
Definition task_sends (tasks : list task) (k : bytes) (b : nat * nat) : Prop :=
  exists e j, task_call tasks b = Some (e, KRename k j) /\ j <> k /\ refused (KRename k j) = None.

(** Call [a] of the tasks gets what is at [k]; it was told that nothing is there. *)
Definition task_reads (tasks : list task) (k : bytes) (t : key_type) (a : nat * nat) : Prop :=
  exists e c, task_call tasks a = Some (e, c) /\ reads_key c k t.
Definition task_none (tasks : list task) (x : lsystem) (a : nat * nat) : Prop :=
  got tasks x a (RErr (CERunningCommand EKeyNonexistent)).

(** Call [a] has returned, and that is the value [v] if [v] can be sent: see [sound]. *)
Definition task_hears (tasks : list task) (x : lsystem) (a : nat * nat) (v : value) : Prop :=
  sound v -> task_told tasks x a v.

(** Call [a] has begun. *)
Definition task_begun (tasks : list task) (x : lsystem) (a : nat * nat) : Prop := ~ ahead tasks x a.

(** What a value is after several appends. *)
Definition appended_to (v : value) (vs : list value) : value := written_on v (map content vs).
