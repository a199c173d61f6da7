(** Requests that have nothing to do with each other (C92 - C94). *)
From Verif Require Import Bytes Value CommandId Request Metrics Prog Commands HistorySpec ConcSpec
  Scripts LinSpec.
From stdpp Require Import gmap list.
From Coq Require Import NArith.

(** Neither of two calls may change a key the other one looks at or changes; neither asks for the
    counters. *)
Definition apart (a b : call) : Prop :=
  r_command (c_req a) <> CStats /\ r_command (c_req b) <> CStats /\
  forall k, (uses (c_req a) k -> ~ may_write (c_req b) k) /\
            (uses (c_req b) k -> ~ may_write (c_req a) k).

(** A key that some call of the sequence uses. *)
Definition uses_one (h : list call) (k : bytes) : Prop := exists c, c ∈ h /\ uses (c_req c) k.

(** No other client may change a key that client [i] uses, and client [i] does not ask for the
    counters. *)
Definition alone_with_its_keys (scripts : list (list call)) (i : nat) : Prop :=
  (forall j c, call_at scripts (i, j) = Some c -> r_command (c_req c) <> CStats) /\
  forall j i' j' c c' k, call_at scripts (i, j) = Some c -> call_at scripts (i', j') = Some c' ->
    i' <> i -> uses (c_req c) k -> ~ may_write (c_req c') k.

(** All calls of the client have returned. *)
Definition client_finished (x : client) : Prop := cl_now x = None /\ cl_todo x = [].
