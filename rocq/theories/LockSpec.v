(** Vocabulary for C84: the store with its locks. *)
From Verif Require Import Bytes Value CommandId Request Metrics Prog Commands Concurrent HistorySpec
  ConcSpec Locks.
From stdpp Require Import gmap list.
From Coq Require Import NArith.

(** Threads that have just called [dispatch]. *)
Definition lock_start (cs : list call) (s : store) : lpool :=
  (map TIdle (start cs s).1, s).

(** After the schedule the threads are at [ts] and the store is [s]. *)
Definition lock_reaches (sh : shards) (cs : list call) (s0 : store)
  (sched : list (nat * list value)) (ts : list lthread) (s : store) : Prop :=
  lrun sh sched (lock_start cs s0) = Some (ts, s).

(** A thread that has returned, and one that has no lock. *)
Definition has_returned (t : lthread) (r : cres) : Prop := t = TIdle (PRet r).
Definition no_lock (sh : shards) (t : lthread) : Prop := holding sh t = None.

(** All threads have returned, with these outcomes. *)
Definition all_back (ts : list lthread) (rs : list cres) : Prop := Forall2 has_returned ts rs.
