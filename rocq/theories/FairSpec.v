(** Vocabulary for C90: schedulers. *)
From Verif Require Import Bytes Value Prog HistorySpec Locks LockSpec LockScripts LockScriptSpec.
From stdpp Require Import gmap list.

(** A scheduler picks a client again and again, for ever (and how values change in between).  It is
    fair if it picks each of the clients again and again. *)
Definition fair (clients : nat) (f : nat -> nat * list value) : Prop :=
  forall i, i < clients -> forall n, exists m, n <= m /\ (f m).1 = i.

(** The client that is picked makes a step; nothing happens if it waits for a lock or has finished. *)
Definition try (sh : shards) (p : nat * list value) (x : lsystem) : lsystem :=
  match lsys_step sh p.1 p.2 x with Some y => y | None => x end.

(** After [n] picks. *)
Fixpoint tries (sh : shards) (f : nat -> nat * list value) (n : nat) (x : lsystem) : lsystem :=
  match n with
  | 0 => x
  | S n => tries sh (fun m => f (S m)) n (try sh (f 0) x)
  end.
