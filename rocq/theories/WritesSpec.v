(** Vocabulary for statements about a server whose peers take the answers slowly or not at all
    (C104). *)
From Verif Require Import Bytes Value CommandId Request ReqContext Response Metrics Prog Commands
  WireSpec Server ServerSpec ServerWrites.
From stdpp Require Import gmap list.
From Coq Require Import NArith.

(** What arrived on connection [i], and whether its peer closed its sending side. *)
Definition arrived (i : nat) (evs : list link_event) : bytes :=
  concat (map (fun ev => match ev with
                         | NDeliver j bs => if decide (j = i) then bs else []
                         | _ => []
                         end) evs).

Definition closed_by_peer (i : nat) (evs : list link_event) : bool :=
  existsb (fun ev => match ev with NEnd j => bool_decide (j = i) | _ => false end) evs.

(** The server, with stored data [s0] and no connections yet, after the events. *)
Definition goes (e : env) (s0 : store) (evs : list link_event) (ls : list link) (s : store) : Prop :=
  links_run e evs ([], s0) = Some (ls, s).

(** The counters cannot overflow during these events. *)
Definition room_through (evs : list link_event) (s : store) : Prop :=
  forall m, (default 0 (st_counters s !! m) + lenN evs < 2 ^ 64)%N.

(** Nothing of an answer is left to write, and the task waits for input or is over. *)
Definition idle (e : env) (l : link) (s : store) : Prop :=
  l_out l = [] /\ conn_step e (l_conn l) s = None.

(** The event is the work of connection [i]'s own task. *)
Definition own_work (i : nat) (ev : link_event) : Prop :=
  ev = NStep i \/ exists n, ev = NWrite i n.

(** The server after the events, when they are possible. *)
Definition end_of (e : env) (s0 : store) (evs : list link_event) : links :=
  match links_run e evs ([], s0) with Some x => x | None => ([], s0) end.
