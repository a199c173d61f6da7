(** The engine as one object: engine/src/hop.rs.

    [Hop] ties the store, its metrics, the subscriptions, the sessions and the configuration
    together and hands each of them out.  This file is about calls made one after another;
    [Concurrent], [Session] and [ConcPubSub] have the parallel ones.

    Not modelled: the guards that [State::key_ref], [key_mut] and [key_or_insert_with]
    hand out (commands use them, see [Commands]). *)
From Verif Require Import Bytes Value Metrics Prog Commands Session PubSub Request.
From stdpp Require Import gmap list.
From Coq Require Import NArith.

(** [Config], engine/src/hop.rs:28-32 *)
Record config := Config { pubsub_enabled : bool; sessions_active_max : N }.

(** [Config::default], engine/src/hop.rs:47-54; [usize::MAX] on 64 bits. *)
Definition config_default : config := Config true (2 ^ 64 - 1).

(** The two setters of [Builder], engine/src/hop.rs:94-108. *)
Inductive setting :=
| SetPubsub (b : bool)
| SetSessionsMax (n : N).

(** [Builder::pubsub_enabled], [Builder::sessions_active_max], engine/src/hop.rs:96-100, 105-109. *)
Definition builder_set (c : config) (s : setting) : config :=
  match s with
  | SetPubsub b => Config b (sessions_active_max c)
  | SetSessionsMax n => Config (pubsub_enabled c) n
  end.

(** [HopRef], engine/src/hop.rs:121-129; the metrics are in the [store]. *)
Record hop := Hop {
  h_config : config;
  h_store : store;
  h_sessions : sessions;
  h_pubsub : pubsub
}.

(** [Builder::new] (engine/src/hop.rs:83-85), settings, [build] (88-90, 111-118) with
    [HopRef::default] (131-145). *)
Definition hop_build (l : list setting) : hop :=
  Hop (fold_left builder_set l config_default) store_new sessions_new pubsub_new.

(** Calls on the engine and on what it hands out; engine/src/hop.rs:170-228,
    engine/src/state/mod.rs:70-110,207-209, engine/src/session/manager.rs:29-50,
    engine/src/pubsub/manager.rs:17-90.  The build profile and the iteration order are those
    of the call. *)
Inductive hop_call :=
| HDispatch (e : env) (req : request) (res : bytes)
| HConfig
| HCounter (m : metric)
| HInsert (k : bytes) (v : value)
| HRemove (k : bytes)
| HContains (k : bytes)
| HKeyType (k : bytes)
| HAddSession (dbg : bool) (token : bytes)
| HDropSession (id : N)
| HSubscription (k : bytes) (s : N)
| HSubscribe (k : bytes) (s : N)
| HUnsubscribe (k : bytes) (s : N)
| HRemoveSession (s : N).

(** What a call returns; the results of the functions cited at [hop_call],
    engine/src/hop.rs:170-228. *)
Inductive hop_res :=
| HRDispatch (r : cres)
| HRConfig (c : config)
| HRCounter (n : option N)
| HRValue (v : option value)
| HRBool (b : bool)
| HRKeyType (t : option key_type)
| HRSession (id : option N)
| HRSubscription (s : option N).

(** One call, engine/src/hop.rs:170-228. *)
Definition hop_do (h : hop) (c : hop_call) : hop * hop_res :=
  let with_store s := Hop (h_config h) s (h_sessions h) (h_pubsub h) in
  let with_keys ks := with_store (Store ks (st_counters (h_store h))) in
  let with_pubsub p := Hop (h_config h) (h_store h) (h_sessions h) p in
  let keys := st_keys (h_store h) in
  match c with
  | HDispatch e req res =>
    let '(s, r) := dispatch e (h_store h) req res in (with_store s, HRDispatch r)
  | HConfig => (h, HRConfig (h_config h))
  | HCounter m => (h, HRCounter (st_counters (h_store h) !! m))
  | HInsert k v => (with_keys (<[k := v]> keys), HRValue (keys !! k))
  | HRemove k => (with_keys (delete k keys), HRValue (keys !! k))
  | HContains k => (h, HRBool (bool_decide (is_Some (keys !! k))))
  | HKeyType k => (h, HRKeyType (kind <$> (keys !! k)))
  | HAddSession dbg t =>
    let '(m, cs, id) := session_add dbg (h_sessions h) (st_counters (h_store h)) t in
    (Hop (h_config h) (Store keys cs) m (h_pubsub h), HRSession id)
  | HDropSession id =>
    let '(m, b) := session_remove (h_sessions h) id in
    (Hop (h_config h) (h_store h) m (h_pubsub h), HRBool b)
  | HSubscription k s => (h, HRSubscription (ps_get (h_pubsub h) k s))
  | HSubscribe k s => let '(p, r) := ps_subscribe (h_pubsub h) k s in (with_pubsub p, HRSubscription r)
  | HUnsubscribe k s => let '(p, r) := ps_unsubscribe (h_pubsub h) k s in (with_pubsub p, HRBool r)
  | HRemoveSession s => let '(p, r) := ps_remove_session (h_pubsub h) s in (with_pubsub p, HRBool r)
  end.

(** Calls one after the other; engine/src/hop.rs:170-228. *)
Fixpoint hop_run (h : hop) (cs : list hop_call) : hop * list hop_res :=
  match cs with
  | [] => (h, [])
  | c :: cs =>
    let '(h, r) := hop_do h c in
    let '(h, rs) := hop_run h cs in (h, r :: rs)
  end.
