(** Vocabulary for sessions, subscriptions, the timer and the metrics library
    (C45 - C50). *)
From Verif Require Import Bytes Session PubSub Timer Metrics Prog Commands HistorySpec.
From stdpp Require Import gmap list.
From Coq Require Import NArith ZArith.

(** ** Sessions *)

(** How many sessions a history adds. *)
Definition is_addition (ev : event) : bool :=
  match ev with EvSessionAdd _ => true | _ => false end.
Definition additions (h : list event) : N := lenN (filter (fun ev => is_addition ev = true) h).

(** The [i]-th event of the history returned the new session [id]. *)
Definition gave (rs : list result) (i : nat) (id : N) : Prop :=
  rs !! i = Some (RSession (Some id)).

(** After [h] with results [rs], the session [id] with this token was added and not
    removed since. *)
Definition added_and_kept (h : list event) (rs : list result) (token : bytes) (id : N) : Prop :=
  exists h1 h2, h = h1 ++ EvSessionAdd token :: h2 /\ gave rs (length h1) id /\
    ~ EvSessionRemove id ∈ h2.

(** A thread of concurrent additions that has returned the id [id]. *)
Definition add_done (a : add_state) (id : N) : Prop := a = ADone id.

(** Several clones about to add sessions with these tokens. *)
Definition adds_start (tokens : list bytes) : list add_state * add_shared :=
  (map AStart tokens, AddShared sessions_new ∅ ∅).

(** ** Subscriptions *)

Inductive ps_op :=
| PSubscribe (k : bytes) (s : N)
| PUnsubscribe (k : bytes) (s : N)
| PRemoveSession (s : N).

Definition ps_do (p : pubsub) (o : ps_op) : pubsub :=
  match o with
  | PSubscribe k s => (ps_subscribe p k s).1
  | PUnsubscribe k s => (ps_unsubscribe p k s).1
  | PRemoveSession s => (ps_remove_session p s).1
  end.

(** The state after a history. *)
Definition ps_after (h : list ps_op) : pubsub := fold_left ps_do h pubsub_new.

(** The operation ends a subscription of [s] to [k]. *)
Definition ends_subscription (o : ps_op) (k : bytes) (s : N) : Prop :=
  o = PUnsubscribe k s \/ o = PRemoveSession s.

(** The session subscribed to the key and nothing has ended it since. *)
Definition subscribed (h : list ps_op) (k : bytes) (s : N) : Prop :=
  exists h1 h2, h = h1 ++ PSubscribe k s :: h2 /\
    Forall (fun o => ~ ends_subscription o k s) h2.

(** Some session has subscribed to the key at some time. *)
Definition ever_subscribed (h : list ps_op) (k : bytes) : Prop :=
  exists s, PSubscribe k s ∈ h.

(** The sessions recorded under a key. *)
Definition recorded (p : pubsub) (k : bytes) : gset N := default ∅ (ps_keys p !! k).

(** The first session that ever subscribed to the key, unless it unsubscribed since. *)
Definition first_and_kept (h : list ps_op) (k : bytes) (s : N) : Prop :=
  exists h1 h2, h = h1 ++ PSubscribe k s :: h2 /\ ~ ever_subscribed h1 k /\
    PUnsubscribe k s ∉ h2.

(** The session has subscribed to something since it was last removed. *)
Definition entered (h : list ps_op) (s : N) : Prop :=
  exists h1 k h2, h = h1 ++ PSubscribe k s :: h2 /\ PRemoveSession s ∉ h2.

(** ** The timer *)

Inductive timer_op := TStart | TStop | TReset.

(** What a call returned. *)
Inductive timer_res := TRStart (b : bool) | TRStop (r : outcome (option N)) | TRReset.

(** One call, with what the clock reads. *)
Definition timer_do (t : timer) (o : timer_op * timespec) : timer * timer_res :=
  match o.1 with
  | TStart => let '(t, b) := timer_start t o.2 in (t, TRStart b)
  | TStop => let '(t, r) := timer_stop t o.2 in (t, TRStop r)
  | TReset => (timer_reset t, TRReset)
  end.

Definition timer_after (h : list (timer_op * timespec)) : timer :=
  fold_left (fun t o => (timer_do t o).1) h timer_new.

(** A time the kernel can report, and the nanoseconds it stands for. *)
Definition timespec_ok (t : timespec) : Prop :=
  (0 <= tv_sec t < 2 ^ 63 /\ 0 <= tv_nsec t < 1000000000)%Z.
Definition in_nanos (t : timespec) : Z := (tv_sec t * 1000000000 + tv_nsec t)%Z.

(** The clock never goes back. *)
Definition monotonic (h : list (timer_op * timespec)) : Prop :=
  Forall (fun o => timespec_ok o.2) h /\
  forall i j a b, (i <= j)%nat -> h !! i = Some a -> h !! j = Some b ->
    (in_nanos a.2 <= in_nanos b.2)%Z.

Definition no_op (o : timer_op) (h : list (timer_op * timespec)) : Prop :=
  Forall (fun x => x.1 <> o) h.

(** Since the last reset the timer was (first) started at [a]. *)
Definition started_at (h : list (timer_op * timespec)) (a : timespec) : Prop :=
  exists h0 h1 h2, h = h0 ++ h1 ++ (TStart, a) :: h2 /\
    (h0 = [] \/ exists h' x, h0 = h' ++ [(TReset, x)]) /\
    no_op TReset h1 /\ no_op TStart h1 /\ no_op TReset h2.

(** ... and then (first) stopped at [b]. *)
Definition measured (h : list (timer_op * timespec)) (a b : timespec) : Prop :=
  exists h0 h1 h2 h3, h = h0 ++ h1 ++ (TStart, a) :: h2 ++ (TStop, b) :: h3 /\
    (h0 = [] \/ exists h' x, h0 = h' ++ [(TReset, x)]) /\
    no_op TReset h1 /\ no_op TStart h1 /\ no_op TReset h2 /\ no_op TStop h2 /\ no_op TReset h3.

(** ** Metrics *)

Section metrics.
  Context {T : Type} `{Countable T}.

  Inductive metric_op := MIncrement (k : T) | MGauge (k : T) (n : N) | MDrop.

  Global Instance metric_op_eq_dec : EqDecision metric_op.
  Proof. solve_decision. Defined.

  (** One call through a writer handle, or the drop of the metrics; what the call
      returned, [None] for a panic. *)
  Definition metric_do (dbg : bool) (i : @instance T _ _) (o : metric_op)
    : @instance T _ _ * option bool :=
    match o with
    | MIncrement k =>
      match writer_increment dbg i k with
      | Ok (i, b) => (i, Some b)
      | Panic => (i, None)
      end
    | MGauge k n => let '(i, b) := writer_gauge i k n in (i, Some b)
    | MDrop => (None, Some true)
    end.

  Definition metric_after (dbg : bool) (h : list metric_op) : @instance T _ _ :=
    fold_left (fun i o => (metric_do dbg i o).1) h (Some metrics_new).

  (** How often the key was incremented, and the last value of the gauge. *)
  Definition increments (h : list metric_op) (k : T) : N :=
    lenN (filter (fun o => o = MIncrement k) h).

  Definition last_gauge (h : list metric_op) (k : T) (v : option N) : Prop :=
    match v with
    | None => forall n, MGauge k n ∉ h
    | Some n => exists h1 h2, h = h1 ++ MGauge k n :: h2 /\ forall n', MGauge k n' ∉ h2
    end.
End metrics.
Arguments metric_op : clear implicits.
