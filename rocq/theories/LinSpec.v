(** What linearizability means for clients with scripts (C74). *)
From Verif Require Import Bytes Value CommandId Request Metrics Prog Commands HistorySpec ConcSpec
  Scripts.
From stdpp Require Import gmap list.
From Coq Require Import NArith.

(** Call [j] of client [i]. *)
Definition call_at (scripts : list (list call)) (ij : nat * nat) : option call :=
  scripts !! ij.1 ≫= fun h => h !! ij.2.

(** Some client issues it. *)
Definition issued (scripts : list (list call)) (c : call) : Prop :=
  exists ij, call_at scripts ij = Some c.

(** How many calls a client has begun. *)
Definition begun (x : client) : nat :=
  length (cl_done x) + match cl_now x with Some _ => 1 | None => 0 end.

(** The counters cannot overflow. *)
Definition room_for_all (scripts : list (list call)) (s : store) : Prop :=
  forall m, (count s m + lenN (concat scripts) < 2 ^ 64)%N.

(** Each call looks at or changes one key once, or updates a key that is there at the start and
    that nobody deletes. *)
Definition simple (scripts : list (list call)) (s0 : store) : Prop :=
  forall c, issued scripts c ->
  one_access (c_req c) \/
  (one_update (c_req c) /\
   forall k, arg (c_req c) 0 = Some k ->
     is_Some (st_keys s0 !! k) /\
     forall d, issued scripts d -> r_command (c_req d) = CDelete -> arg (c_req d) 0 <> Some k).

(** [l] lists calls that have taken effect, in this order: running them one after another from
    [s0] gives the data there is, and the outcomes of all calls that have returned. *)
Definition explains (scripts : list (list call)) (s0 : store) (l : list (nat * nat)) (x : system)
  : Prop :=
  exists h, Forall2 (fun ij c => call_at scripts ij = Some c) l h /\
  NoDup l /\
  st_keys x.2 = st_keys (run_calls h s0).1 /\
  forall i cl, x.1 !! i = Some cl ->
    (forall j, (i, j) ∈ l -> j < begun cl) /\
    (forall j r, cl_done cl !! j = Some r ->
       exists p, l !! p = Some (i, j) /\ (run_calls h s0).2 !! p = Some r).

(** At every instant there is such an order, and it only grows: so a call takes effect at an
    instant between its begin and its return. *)
Definition linearizable (scripts : list (list call)) (s0 : store) (sched : list nat) : Prop :=
  exists lin : nat -> list (nat * nat),
  forall n x, n <= length sched -> sys_run (take n sched) (begin scripts s0) = Some x ->
    explains scripts s0 (lin n) x /\ forall m, m <= n -> lin m `prefix_of` lin n.
