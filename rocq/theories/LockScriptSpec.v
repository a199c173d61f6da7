(** Vocabulary for C89 - C91: sequences of calls and the locks of the store. *)
From Verif Require Import Bytes Value CommandId Request Metrics Prog Commands HistorySpec ConcSpec
  Scripts LinSpec KeyLinSpec Locks LockSpec LockScripts.
From stdpp Require Import gmap list.
From Coq Require Import NArith.

(** How many calls a client has begun. *)
Definition lbegun (x : lclient) : nat :=
  length (lc_done x) + match lc_now x with Some _ => 1 | None => 0 end.

(** The client has no lock. *)
Definition lfree (sh : shards) (x : lclient) : Prop := no_lock sh (lc_thread x).

(** Two views of the same clients: the same calls begun, the same outcomes returned. *)
Definition same_client (x : lclient) (y : client) : Prop :=
  lc_done x = cl_done y /\ lbegun x = begun y /\ lc_todo x = cl_todo y.

(** The calls of all clients have been made and have returned. *)
Definition lfinished (x : lclient) : Prop := lc_now x = None /\ lc_todo x = [].

(** Call [ij] has returned [r]; it has not begun; [a] had returned before [b] began. *)
Definition lreturned (x : lsystem) (ij : nat * nat) (r : cres) : Prop :=
  exists cl, x.1 !! ij.1 = Some cl /\ lc_done cl !! ij.2 = Some r.
Definition lnot_begun (x : lsystem) (ij : nat * nat) : Prop :=
  exists cl, x.1 !! ij.1 = Some cl /\ lbegun cl <= ij.2.
Definition lbefore (sh : shards) (scripts : list (list call)) (s0 : store)
  (sched : list (nat * list value)) (a b : nat * nat) : Prop :=
  exists n x r, n <= length sched /\ lsys_run sh (take n sched) (lbegin scripts s0) = Some x /\
    lreturned x a r /\ lnot_begun x b.

(** Nobody has the lock of the key for writing. *)
Definition unlocked (sh : shards) (x : lsystem) (k : bytes) : Prop :=
  forall cl, cl ∈ x.1 -> holding sh (lc_thread cl) <> Some (KeyLock (key_shard sh k), true).

(** As [explains]: for the keys nobody has locked for writing. *)
Definition lexplains (sh : shards) (scripts : list (list call)) (s0 : store) (l : list (nat * nat))
  (x : lsystem) : Prop :=
  exists h, Forall2 (fun ij c => call_at scripts ij = Some c) l h /\
  NoDup l /\
  (forall k, unlocked sh x k -> st_keys x.2 !! k = st_keys (run_calls h s0).1 !! k) /\
  forall i cl, x.1 !! i = Some cl ->
    (forall j, (i, j) ∈ l -> j < lbegun cl) /\
    (forall j r, lc_done cl !! j = Some r ->
       exists p, l !! p = Some (i, j) /\ (run_calls h s0).2 !! p = Some r).

(** As [explains_at]. *)
Definition lexplains_at (sh : shards) (k : bytes) (scripts : list (list call)) (s0 : store)
  (l : list (nat * nat)) (x : lsystem) : Prop :=
  exists h, Forall2 (fun ij c => call_at scripts ij = Some c /\ about k c) l h /\
  NoDup l /\
  (unlocked sh x k -> st_keys x.2 !! k = st_keys (run_calls h s0).1 !! k) /\
  forall i cl, x.1 !! i = Some cl ->
    (forall j, (i, j) ∈ l -> j < lbegun cl) /\
    (forall j r c, lc_done cl !! j = Some r -> call_at scripts (i, j) = Some c -> about k c ->
       exists p, l !! p = Some (i, j) /\ (run_calls h s0).2 !! p = Some r).

(** At every instant there is such an order, and it only grows. *)
Definition lordered (sh : shards) (scripts : list (list call)) (s0 : store)
  (sched : list (nat * list value)) (E : list (nat * nat) -> lsystem -> Prop) : Prop :=
  exists lin : nat -> list (nat * nat),
  forall n x, n <= length sched -> lsys_run sh (take n sched) (lbegin scripts s0) = Some x ->
    E (lin n) x /\ forall m, m <= n -> lin m `prefix_of` lin n.
