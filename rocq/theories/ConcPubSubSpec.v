(** Vocabulary for concurrent use of the subscriptions (C76, C77). *)
From Verif Require Import Bytes PubSub LibSpec ConcPubSub.
From stdpp Require Import gmap list.
From Coq Require Import NArith.

Definition returned (t : ps_thread) : Prop := exists r, t = TReturned r.

(** What a call changes, as an operation of the sequential history. *)
Definition op_of (c : ps_call) : option ps_op :=
  match c with
  | CallGet _ _ => None
  | CallSubscribe k s => Some (PSubscribe k s)
  | CallUnsubscribe k s => Some (PUnsubscribe k s)
  | CallRemove s => Some (PRemoveSession s)
  end.
Definition ops (calls : list ps_call) (l : list nat) : list ps_op :=
  omap (fun i => calls !! i ≫= op_of) l.

(** What a call returns when it is made alone. *)
Definition alone (p : pubsub) (c : ps_call) : ps_result :=
  match c with
  | CallGet k s => RGet (ps_get p k s)
  | CallSubscribe k s => RSubscribe (ps_subscribe p k s).2
  | CallUnsubscribe k s => RUnsubscribe (ps_unsubscribe p k s).2
  | CallRemove s => RRemove (ps_remove_session p s).2
  end.

(** All calls have returned what they return when made one after another in the order [l]. *)
Definition in_order (calls : list ps_call) (l : list nat) (ts : list ps_thread) : Prop :=
  l ≡ₚ seq 0 (length calls) /\
  forall p i c, l !! p = Some i -> calls !! i = Some c ->
    ts !! i = Some (TReturned (alone (ps_after (ops calls (take p l))) c)).

(** The weaker condition on a result [r] of the call [c], made when the manager is [p]: exact for
    [get] and removal, and nothing is reported that did not happen to the subscription. *)
Definition fitting (p : pubsub) (c : ps_call) (r : ps_result) : Prop :=
  match c with
  | CallGet _ _ | CallRemove _ => r = alone p c
  | CallSubscribe k s =>
    r = RSubscribe None \/
    (ps_get p k s = None /\ exists sub, r = RSubscribe (Some sub) /\
       ps_get (ps_subscribe p k s).1 k s = Some sub)
  | CallUnsubscribe k s =>
    r = RUnsubscribe true \/ (ps_get p k s = None /\ r = RUnsubscribe false)
  end.

(** [l] lists calls that have taken effect, in this order: who is subscribed to what, and which
    subscription they hold, is as after making them one after another. *)
Definition explained (calls : list ps_call) (l : list nat) (x : ps_pool) : Prop :=
  NoDup l /\
  (forall k s, ps_get x.2 k s = ps_get (ps_after (ops calls l)) k s) /\
  forall i c t, calls !! i = Some c -> x.1 !! i = Some t ->
    (i ∈ l -> t <> ps_start c) /\
    (forall r, t = TReturned r ->
       exists p, l !! p = Some i /\ fitting (ps_after (ops calls (take p l))) c r).

(** At every instant there is such an order, and it only grows: so a call takes effect at an
    instant between its begin and its return. *)
Definition subscriptions_linearizable (sh : sharding) (calls : list ps_call) (sched : list nat)
  : Prop :=
  exists lin : nat -> list nat,
  forall n x, n <= length sched -> ps_run sh (take n sched) (ps_begin calls) = Some x ->
    explained calls (lin n) x /\ forall m, m <= n -> lin m `prefix_of` lin n.

(** The same result, when the subscriptions made are called by other names: [names] has, for each
    subscription of the sequential history, the one it is in the concurrent one. *)
Definition same_sub (names : list N) (got alone : option N) : Prop :=
  match got, alone with
  | None, None => True
  | Some a, Some b => names !! N.to_nat b = Some a
  | _, _ => False
  end.
Definition same_result (names : list N) (got alone : ps_result) : Prop :=
  match got, alone with
  | RGet a, RGet b => same_sub names a b
  | RSubscribe a, RSubscribe b => same_sub names a b
  | RUnsubscribe a, RUnsubscribe b => a = b
  | RRemove a, RRemove b => a = b
  | _, _ => False
  end.

(** Every call that has returned has returned what it returns when the calls [l] are made one after
    another in this order. *)
Definition explained_exactly (calls : list ps_call) (l : list nat) (x : ps_pool) : Prop :=
  NoDup l /\
  exists names, NoDup names /\
  forall i c t, calls !! i = Some c -> x.1 !! i = Some t ->
    (i ∈ l -> t <> ps_start c) /\
    (forall r, t = TReturned r ->
       exists p, l !! p = Some i /\
         same_result names r (alone (ps_after (ops calls (take p l))) c)).

Definition results_linearizable (sh : sharding) (calls : list ps_call) (sched : list nat) : Prop :=
  exists lin : nat -> list nat,
  forall n x, n <= length sched -> ps_run sh (take n sched) (ps_begin calls) = Some x ->
    explained_exactly calls (lin n) x /\ forall m, m <= n -> lin m `prefix_of` lin n.

Definition unsubscribes (c : ps_call) : Prop := exists k s, c = CallUnsubscribe k s.
