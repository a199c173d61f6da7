(** Subscriptions: engine/src/pubsub/manager.rs and engine/src/pubsub/mod.rs *)
From Verif Require Import Bytes.
From stdpp Require Import gmap list.
From Coq Require Import NArith.

(** [PubSubManagerRef], engine/src/pubsub/manager.rs:6-10.  A [Subscription]
    (engine/src/pubsub/mod.rs:8-12) is an identity; [ps_fresh] is the next one to be
    allocated and [ps_closed] holds those whose channel was closed.  Simplification: the
    channel's messages are not modelled, nothing in the engine sends any. *)
Record pubsub := PubSub {
  ps_keys : gmap bytes (gset N);
  ps_sessions : gmap N (gmap bytes N);
  ps_fresh : N;
  ps_closed : gset N
}.

(** [PubSubManager::default], engine/src/pubsub/manager.rs:6, 12 *)
Definition pubsub_new : pubsub := PubSub ∅ ∅ 0 ∅.

(** [PubSubManager::get], engine/src/pubsub/manager.rs:17-22 *)
Definition ps_get (p : pubsub) (k : bytes) (s : N) : option N :=
  match ps_sessions p !! s with
  | None => None
  | Some m => m !! k
  end.

(** [PubSubManager::subscribe], engine/src/pubsub/manager.rs:28-52 *)
Definition ps_subscribe (p : pubsub) (k : bytes) (s : N) : pubsub * option N :=
  let m := default ∅ (ps_sessions p !! s) in
  match m !! k with
  | Some _ => (PubSub (ps_keys p) (<[s := m]> (ps_sessions p)) (ps_fresh p) (ps_closed p), None)
  | None =>
    let sub := ps_fresh p in
    let p := PubSub (ps_keys p) (<[s := <[k := sub]> m]> (ps_sessions p)) (ps_fresh p + 1)
                    (ps_closed p) in
    match ps_keys p !! k with
    | Some _ => (p, None)
    | None =>
      (PubSub (<[k := {[s]}]> (ps_keys p)) (ps_sessions p) (ps_fresh p) (ps_closed p), Some sub)
    end
  end.

(** [PubSubManager::unsubscribe], engine/src/pubsub/manager.rs:58-75 *)
Definition ps_unsubscribe (p : pubsub) (k : bytes) (s : N) : pubsub * bool :=
  let '(ks, key_unsubbed) :=
    match ps_keys p !! k with
    | Some x => (<[k := x ∖ {[s]}]> (ps_keys p), bool_decide (s ∈ x))
    | None => (ps_keys p, false)
    end in
  let '(ss, session_unsubbed) :=
    match ps_sessions p !! s with
    | Some m => (<[s := delete k m]> (ps_sessions p),
                 match m !! k with Some _ => true | None => false end)
    | None => (ps_sessions p, false)
    end in
  (PubSub ks ss (ps_fresh p) (ps_closed p), key_unsubbed || session_unsubbed).

(** [PubSubManager::remove_session], engine/src/pubsub/manager.rs:80-90 *)
Definition ps_remove_session (p : pubsub) (s : N) : pubsub * bool :=
  match ps_sessions p !! s with
  | None => (p, false)
  | Some m =>
    (PubSub (ps_keys p) (delete s (ps_sessions p)) (ps_fresh p)
            (ps_closed p ∪ list_to_set (map_to_list m).*2), true)
  end.
