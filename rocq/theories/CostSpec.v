(** Vocabulary for what a peer can make the server send and keep (C107). *)
From Verif Require Import Bytes ReqContext Server ServerSpec.
From stdpp Require Import list.
From Coq Require Import NArith.

(** How many of the bytes end a line. *)
Definition line_ends (bs : bytes) : N := lenN (List.filter (fun b => (b2n b =? 10)%N) bs).

(** How many lines the peer of connection [i] has sent, counting what it sent before closing. *)
Definition lines_sent (i : nat) (evs : list event) : N :=
  (line_ends (received i evs) + if ended i evs then 1 else 0)%N.

(** The largest response to a request without arguments: statistics with the three counters.
    Length, kind and count; then each counter's name and number with their lengths. *)
Definition largest_answer : N := (4 + 1 + 2 + 3 * (1 + 4 + 8) + (16 + 19 + 16))%N.

(** The end of the stream that is no whole message yet. *)
Definition unfinished (stream : bytes) : bytes := (messages [] stream).2.

(** What the task of a connection holds: what it was reading into, and what it has not read. *)
Definition kept (c : conn) : bytes := k_input c ++ k_unread c.
