(** What it means that the calls about one key take effect one after the other (C85 - C87). *)
From Verif Require Import Bytes Value CommandId Request Metrics Prog Commands WireSpec RequestSpec
  HistorySpec ConcSpec Scripts LinSpec.
From stdpp Require Import gmap list.
From Coq Require Import NArith ZArith.

(** The call looks at or changes [k], once, and no other key. *)
Definition about (k : bytes) (c : call) : Prop :=
  arg (c_req c) 0 = Some k /\ r_command (c_req c) <> CEcho /\
  (one_access (c_req c) \/ one_update (c_req c)).

(** All calls that may change [k] are like that; and if some call updates [k], then [k] is there at
    the start and nobody deletes it.  What else is issued does not matter. *)
Definition simple_at (k : bytes) (scripts : list (list call)) (s0 : store) : Prop :=
  forall c, issued scripts c ->
  (about k c \/ ~ may_write (c_req c) k) /\
  (one_update (c_req c) -> arg (c_req c) 0 = Some k ->
   is_Some (st_keys s0 !! k) /\
   forall d, issued scripts d -> r_command (c_req d) = CDelete -> arg (c_req d) 0 <> Some k).

(** [l] lists calls about [k] that have taken effect, in this order: running them, and nothing else,
    one after another from [s0] gives what is at [k], and the outcomes of all calls about [k] that
    have returned. *)
Definition explains_at (k : bytes) (scripts : list (list call)) (s0 : store) (l : list (nat * nat))
  (x : system) : Prop :=
  exists h, Forall2 (fun ij c => call_at scripts ij = Some c /\ about k c) l h /\
  NoDup l /\
  st_keys x.2 !! k = st_keys (run_calls h s0).1 !! k /\
  forall i cl, x.1 !! i = Some cl ->
    (forall j, (i, j) ∈ l -> j < begun cl) /\
    (forall j r c, cl_done cl !! j = Some r -> call_at scripts (i, j) = Some c -> about k c ->
       exists p, l !! p = Some (i, j) /\ (run_calls h s0).2 !! p = Some r).

(** At every instant there is such an order, and it only grows. *)
Definition linearizable_at (k : bytes) (scripts : list (list call)) (s0 : store) (sched : list nat)
  : Prop :=
  exists lin : nat -> list (nat * nat),
  forall n x, n <= length sched -> sys_run (take n sched) (begin scripts s0) = Some x ->
    explains_at k scripts s0 (lin n) x /\ forall m, m <= n -> lin m `prefix_of` lin n.

(** Call [ij] has returned [r]; it has not begun. *)
Definition returned (x : system) (ij : nat * nat) (r : cres) : Prop :=
  exists cl, x.1 !! ij.1 = Some cl /\ cl_done cl !! ij.2 = Some r.
Definition not_begun (x : system) (ij : nat * nat) : Prop :=
  exists cl, x.1 !! ij.1 = Some cl /\ begun cl <= ij.2.

(** At some instant of the schedule [a] had returned and [b] not begun. *)
Definition before (scripts : list (list call)) (s0 : store) (sched : list nat) (a b : nat * nat)
  : Prop :=
  exists n x r, n <= length sched /\ sys_run (take n sched) (begin scripts s0) = Some x /\
    returned x a r /\ not_begun x b.

(** All calls of all clients have returned. *)
Definition finished (scripts : list (list call)) (x : system) : Prop :=
  Forall2 (fun sc cl => length (cl_done cl) = length sc) scripts x.1.

(** The call appends the items [l] to what is at [k], as kind [t]; the call deletes [k]. *)
Definition appends (c : call) (k : bytes) (t : key_type) (l : list bytes) : Prop :=
  asks (c_req c) CAppend (Some t) (k :: l).
Definition deletes (c : call) (k : bytes) : Prop :=
  exists r, asks (c_req c) CDelete None (k :: r).
