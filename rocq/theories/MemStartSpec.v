(** Tasks that share a memory client and add to a key that is not there yet (C120). *)
From Verif Require Import Locks LockSpec LockScripts LockScriptSpec.
From Verif Require Import Bytes Value CommandId Client ClientSpec MemTasks MemTaskSpec MemAppendSpec MemForwardSpec
  StartRaceSpec.
From stdpp Require Import list.
From Coq Require Import ZArith.

(** What is in a value that is appended, and what several of them make. *)
Definition content (v : value) : list bytes :=
  match v with VBytes b | VString b => [b] | VList l => l | _ => [] end.
Definition appended (t : key_type) (vs : list value) : value := strung t (map content vs).

(** Call [a] of the tasks adds [d] to the counter; it appends [v], and the client does not refuse to. *)
Definition task_adds (tasks : list task) (k : bytes) (a : nat * nat) (d : Z) : Prop :=
  exists e c, task_call tasks a = Some (e, c) /\ adds_amount c k d.
Definition task_appends (tasks : list task) (k : bytes) (a : nat * nat) (v : value) : Prop :=
  exists e c, task_call tasks a = Some (e, c) /\ appends_value c k v /\ refused c = None.

(** Call [a] has returned, and that is the value [v]. *)
Definition task_over (tasks : list task) (x : lsystem) (a : nat * nat) : Prop := exists r, got tasks x a r.
Definition task_told (tasks : list task) (x : lsystem) (a : nat * nat) (v : value) : Prop :=
  got tasks x a (ROk (RpValue v)).
