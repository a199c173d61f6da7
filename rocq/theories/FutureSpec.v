(** What a program sees of its requests, in terms of its own history only. *)
From Coq Require Import String.
From Verif Require Import Bytes Value Metrics Prog Commands HistorySpec Client ClientSpec Futures.
From stdpp Require Import gmap list.

(** The requests made so far. *)
Definition made (h : list event) : list client_call :=
  omap (fun ev => match ev with EMake c => Some c | _ => None end) h.

Definition was_polled (i : nat) (h : list event) : bool :=
  existsb (fun ev => match ev with EPoll _ j => (i =? j)%nat | _ => false end) h.
Definition was_dropped (i : nat) (h : list event) : bool :=
  existsb (fun ev => match ev with EDrop j => (i =? j)%nat | _ => false end) h.

(** Only requests that have been made, and not dropped, are polled or dropped: a Rust program
    that polls or drops any other does not compile. *)
Definition uses (ev : event) : option nat :=
  match ev with EMake _ => None | EPoll _ i | EDrop i => Some i end.
Definition lawful (h : list event) : Prop :=
  forall j ev i, h !! j = Some ev -> uses ev = Some i ->
    (i < length (made (take j h)))%nat /\ was_dropped i (take j h) = false.

(** The call that the [j]th event stands for, if it is the first poll of a request. *)
Definition first_poll (h : list event) (j : nat) : option (env * client_call) :=
  match h !! j with
  | Some (EPoll e i) =>
    if was_polled i (take j h) then None else (fun c => (e, c)) <$> made (take j h) !! i
  | _ => None
  end.

(** The calls, in the order in which their requests are first polled. *)
Definition first_polls (h : list event) : list (env * client_call) :=
  omap (first_poll h) (seq 0 (length h)).

(** What a poll that makes its call shows. *)
Definition shows (r : client_res reply) : seen :=
  match r with RPanic => SPanic | r => SReady r end.
