(** Vocabulary for commands that look at the data more than once (C111). *)
From Verif Require Import Bytes Value CommandId Request RequestSpec Prog Commands Concurrent HistorySpec ConcSpec.
From stdpp Require Import gmap list.
From Coq Require Import NArith.

(** The store when client [i] made one of its steps, so between its call and its return. *)
Definition moment (i : nat) (sched : list nat) (x0 : pool) (s : store) : Prop :=
  exists n ts, sched !! n = Some i /\ pool_run (take n sched) x0 = Some (ts, s).

(** The request asks whether all of [ks] are there, or are there with a type. *)
Definition question (req : request) (t : option key_type) (ks : list bytes) : Prop :=
  match t with
  | None => asks req CExists None ks
  | Some _ => asks req CIs t ks
  end.

(** The key is there, with the type. *)
Definition there (t : option key_type) (k : bytes) (s : store) : Prop :=
  exists v, st_keys s !! k = Some v /\ forall t', t = Some t' -> kind v = t'.

(** Once there, it stays there. *)
Definition stays (sched : list nat) (x0 : pool) (t : option key_type) (k : bytes) : Prop :=
  forall n m x y, n <= m -> pool_run (take n sched) x0 = Some x -> pool_run (take m sched) x0 = Some y ->
    there t k x.2 -> there t k y.2.
