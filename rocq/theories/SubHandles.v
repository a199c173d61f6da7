(** Handles of subscriptions: engine/src/pubsub/mod.rs, and the [Weak] handles that
    engine/src/pubsub/manager.rs gives out.

    A [Subscription] lives as long as an [Arc] to it: the one in the manager, and those its users
    made with [Weak::upgrade].  It owns one sender and one receiver of its channel; users can clone
    more out of it.  The library's side of this (assumed, not in the repository): [Arc] and [Weak]
    count, and the channel of futures-intrusive closes when [close] is called, when its last sender
    is dropped or when its last receiver is dropped. *)
From Verif Require Import Bytes PubSub.
From stdpp Require Import gmap list.
From Coq Require Import NArith.

(** The manager, and what its users hold: how many [Arc]s, receivers and senders of each
    subscription, and which channels were closed by other ways than removing the session;
    engine/src/pubsub/mod.rs:8-12, engine/src/pubsub/manager.rs:6-10. *)
Record subs := Subs {
  u_ps : pubsub;
  u_arcs : gmap N N;
  u_rx : gmap N N;
  u_tx : gmap N N;
  u_shut : gset N
}.

(** [PubSubManager::default], engine/src/pubsub/manager.rs:6, 12 *)
Definition subs_new : subs := Subs pubsub_new ∅ ∅ ∅ ∅.

(** How many a user holds of one subscription, zero if none; the counts of [Arc] and of the channel
    (engine/src/pubsub/mod.rs:10-11, engine/src/pubsub/manager.rs:9). *)
Definition tally (m : gmap N N) (w : N) : N := default 0%N (m !! w).

(** The manager has an [Arc] of it; engine/src/pubsub/manager.rs:9 *)
Definition registered (p : pubsub) (w : N) : bool :=
  existsb (fun x => bool_decide (w ∈ (map_to_list (x.2 : gmap bytes N)).*2))
    (map_to_list (ps_sessions p)).

(** Somebody has an [Arc] of it; engine/src/pubsub/manager.rs:9, 35 *)
Definition strong (x : subs) (w : N) : bool :=
  registered (u_ps x) w || (0 <? tally (u_arcs x) w)%N.

(** The channel is closed; engine/src/pubsub/mod.rs:19-21, 33-37 *)
Definition shut (x : subs) (w : N) : bool :=
  bool_decide (w ∈ ps_closed (u_ps x)) || bool_decide (w ∈ u_shut x).

(** [Sender::close]; engine/src/pubsub/mod.rs:19-21 *)
Definition close (x : subs) (w : N) : subs :=
  Subs (u_ps x) (u_arcs x) (u_rx x) (u_tx x) (u_shut x ∪ {[w]}).

(** An [Arc] was dropped: if it was the last one, the subscription drops its receiver and its
    sender; engine/src/pubsub/mod.rs:9-12 *)
Definition arc_dropped (x : subs) (w : N) : subs :=
  if strong x w then x
  else if ((tally (u_rx x) w =? 0) || (tally (u_tx x) w =? 0))%N then close x w else x.

(** What users can do; engine/src/pubsub/manager.rs:17-90, engine/src/pubsub/mod.rs:15-30. *)
Inductive sub_event :=
| UGet (k : bytes) (s : N)          (* [PubSubManager::get] *)
| USubscribe (k : bytes) (s : N)    (* [PubSubManager::subscribe] *)
| UUnsubscribe (k : bytes) (s : N)  (* [PubSubManager::unsubscribe] *)
| URemoveSession (s : N)            (* [PubSubManager::remove_session] *)
| UUpgrade (w : N)                  (* [Weak::upgrade] of a handle *)
| UDrop (w : N)                     (* dropping an upgraded handle *)
| UClose (w : N)                    (* [Subscription::close] *)
| UReceiver (w : N)                 (* [Subscription::receiver] *)
| USender (w : N)                   (* [Subscription::sender] *)
| UDropReceiver (w : N)
| UDropSender (w : N)
| UReceive (w : N)                  (* polling a receiver; nobody is sending *)
| USend (w : N).                    (* polling a send *)

(** What they see: [Option<Weak<Subscription>>], [bool] (engine/src/pubsub/manager.rs:17, 28, 58, 80),
    [Option] of an upgrade, and whether the channel ended (engine/src/pubsub/mod.rs:19-21). *)
Inductive sub_res :=
| UHandle (o : option N)
| UTold (b : bool)
| UUnit
| UEnded (b : bool).                (* whether the channel is at its end *)

(** One action; [None] when it is not possible: using what one does not hold.
    [get], [subscribe], [unsubscribe], [remove_session]: engine/src/pubsub/manager.rs:17-22, 28-52,
    58-75, 80-90; [close], [receiver], [sender]: engine/src/pubsub/mod.rs:19-29. *)
Definition sub_step (x : subs) (e : sub_event) : option (subs * sub_res) :=
  let '(Subs p a rx tx sh) := x in
  match e with
  | UGet k s => Some (x, UHandle (ps_get p k s))
  | USubscribe k s =>
    let '(p', o) := ps_subscribe p k s in Some (Subs p' a rx tx sh, UHandle o)
  | UUnsubscribe k s =>
    let '(p', b) := ps_unsubscribe p k s in
    let x' := Subs p' a rx tx sh in
    Some (match ps_get p k s with Some w => arc_dropped x' w | None => x' end, UTold b)
  | URemoveSession s =>
    let '(p', b) := ps_remove_session p s in
    let ws := match ps_sessions p !! s with Some m => (map_to_list m).*2 | None => [] end in
    Some (fold_left arc_dropped ws (Subs p' a rx tx sh), UTold b)
  | UUpgrade w =>
    if strong x w
    then Some (Subs p (<[w := (tally a w + 1)%N]> a) rx tx sh, UTold true)
    else Some (x, UTold false)
  | UDrop w =>
    if (tally a w =? 0)%N then None
    else Some (arc_dropped (Subs p (<[w := (tally a w - 1)%N]> a) rx tx sh) w, UUnit)
  | UClose w => if (tally a w =? 0)%N then None else Some (close x w, UUnit)
  | UReceiver w =>
    if (tally a w =? 0)%N then None
    else Some (Subs p a (<[w := (tally rx w + 1)%N]> rx) tx sh, UUnit)
  | USender w =>
    if (tally a w =? 0)%N then None
    else Some (Subs p a rx (<[w := (tally tx w + 1)%N]> tx) sh, UUnit)
  | UDropReceiver w =>
    if (tally rx w =? 0)%N then None
    else
      let x' := Subs p a (<[w := (tally rx w - 1)%N]> rx) tx sh in
      Some (if negb (strong x' w) && (tally (u_rx x') w =? 0)%N then close x' w else x', UUnit)
  | UDropSender w =>
    if (tally tx w =? 0)%N then None
    else
      let x' := Subs p a rx (<[w := (tally tx w - 1)%N]> tx) sh in
      Some (if negb (strong x' w) && (tally (u_tx x') w =? 0)%N then close x' w else x', UUnit)
  | UReceive w => if (tally rx w =? 0)%N then None else Some (x, UEnded (shut x w))
  | USend w => if (tally tx w =? 0)%N then None else Some (x, UEnded (shut x w))
  end.
