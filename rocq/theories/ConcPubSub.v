(** Several threads using one [PubSubManager]: engine/src/pubsub/manager.rs.

    Its two maps are [DashMap]s: each is split into shards behind reader-writer locks, [get] takes
    its key's shard for reading, [entry] and [remove] take it for writing, and what they return
    keeps it until dropped.  A thread waiting for a lock cannot move.  Which keys share a shard is
    left open.  Simplification: the maps inside (the subscriptions of one session, the sessions of
    one key) are used in one step while the outer lock is held; their own locks are released in
    the same step. *)
From Verif Require Import Bytes PubSub.
From stdpp Require Import gmap list.
From Coq Require Import NArith.

(** How keys and sessions are spread over shards;
    [DashMap::determine_map], used by the maps of engine/src/pubsub/manager.rs:7-10. *)
Record sharding := Sharding { shard_of_session : N -> N; shard_of_key : bytes -> N }.

(** A call of the manager; engine/src/pubsub/manager.rs:17, 28, 58, 80. *)
Inductive ps_call :=
| CallGet (k : bytes) (s : N)
| CallSubscribe (k : bytes) (s : N)
| CallUnsubscribe (k : bytes) (s : N)
| CallRemove (s : N).

(** What it returns; engine/src/pubsub/manager.rs:17, 28, 58, 80. *)
Inductive ps_result :=
| RGet (sub : option N)
| RSubscribe (sub : option N)
| RUnsubscribe (b : bool)
| RRemove (b : bool).

(** Where a thread is; engine/src/pubsub/manager.rs:17-90. *)
Inductive ps_thread :=
| TGet (k : bytes) (s : N)                        (* line 18 *)
| TGetting (k : bytes) (s : N)                    (* line 19, holds the session *)
| TSubscribe (k : bytes) (s : N)                  (* line 29 *)
| TSubSession (k : bytes) (s sub : N)             (* line 43, holds the session *)
| TSubKey (k : bytes) (s : N) (r : option N)      (* holds session and key *)
| TUnsubscribe (k : bytes) (s : N)                (* line 59 *)
| TUnsubKey (k : bytes) (s : N)                   (* line 63, holds the key *)
| TUnsubbed (k : bytes) (s : N) (b : bool)        (* line 65 *)
| TUnsubSession (k : bytes) (s : N) (b : bool)    (* line 69, holds the session *)
| TRemove (s : N)                                 (* line 83 *)
| TRemoving (s : N)                               (* line 84, holds the session *)
| TClosing (l : list N)                           (* line 85 *)
| TReturned (r : ps_result).

(** A call not yet begun; engine/src/pubsub/manager.rs:17, 28, 58, 80. *)
Definition ps_start (c : ps_call) : ps_thread :=
  match c with
  | CallGet k s => TGet k s
  | CallSubscribe k s => TSubscribe k s
  | CallUnsubscribe k s => TUnsubscribe k s
  | CallRemove s => TRemove s
  end.

(** The lock of a shard of [sessions] or of [keys], engine/src/pubsub/manager.rs:8-9; [true] is
    for writing. *)
Inductive lock := LSession (shard : N) | LKey (shard : N).
Global Instance lock_eq_dec : EqDecision lock.
Proof. solve_decision. Defined.

(** The locks a thread has: the guards alive in engine/src/pubsub/manager.rs:18-21, 29-51, 59-70,
    81-84. *)
Definition holds (sh : sharding) (t : ps_thread) : list (lock * bool) :=
  match t with
  | TGetting _ s => [(LSession (shard_of_session sh s), false)]
  | TSubSession _ s _ => [(LSession (shard_of_session sh s), true)]
  | TSubKey k s _ => [(LSession (shard_of_session sh s), true); (LKey (shard_of_key sh k), true)]
  | TUnsubKey k _ => [(LKey (shard_of_key sh k), false)]
  | TUnsubSession _ s _ => [(LSession (shard_of_session sh s), false)]
  | TRemoving s => [(LSession (shard_of_session sh s), true)]
  | _ => []
  end.

(** The lock it takes with its next step: [get] (18, 62, 68), [entry] (29, 43) and [remove] (83) of
    engine/src/pubsub/manager.rs. *)
Definition wants (sh : sharding) (t : ps_thread) : option (lock * bool) :=
  match t with
  | TGet _ s => Some (LSession (shard_of_session sh s), false)
  | TSubscribe _ s => Some (LSession (shard_of_session sh s), true)
  | TSubSession k _ _ => Some (LKey (shard_of_key sh k), true)
  | TUnsubscribe k _ => Some (LKey (shard_of_key sh k), false)
  | TUnsubbed _ s _ => Some (LSession (shard_of_session sh s), false)
  | TRemove s => Some (LSession (shard_of_session sh s), true)
  | _ => None
  end.

(** A reader-writer lock excludes a writer from everyone else; [DashMap] in
    engine/src/pubsub/manager.rs:8-9. *)
Definition conflict (a b : lock * bool) : bool := bool_decide (a.1 = b.1) && (a.2 || b.2).
(** No thread has a lock in the way; engine/src/pubsub/manager.rs:8-9. *)
Definition granted (sh : sharding) (ts : list ps_thread) (t : ps_thread) : bool :=
  match wants sh t with
  | None => true
  | Some a => forallb (fun t' => forallb (fun b => negb (conflict a b)) (holds sh t')) ts
  end.

(** A step that is not blocked; engine/src/pubsub/manager.rs:17-90. *)
Definition ps_act (t : ps_thread) (p : pubsub) : option (ps_thread * pubsub) :=
  match t with
  | TGet k s => Some (TGetting k s, p)
  | TGetting k s => Some (TReturned (RGet (ps_get p k s)), p)
  | TSubscribe k s =>
    let m := default ∅ (ps_sessions p !! s) in
    match m !! k with
    | Some _ => Some (TReturned (RSubscribe None),
        PubSub (ps_keys p) (<[s := m]> (ps_sessions p)) (ps_fresh p) (ps_closed p))
    | None => Some (TSubSession k s (ps_fresh p),
        PubSub (ps_keys p) (<[s := <[k := ps_fresh p]> m]> (ps_sessions p)) (ps_fresh p + 1)
          (ps_closed p))
    end
  | TSubSession k s sub =>
    match ps_keys p !! k with
    | Some _ => Some (TSubKey k s None, p)
    | None => Some (TSubKey k s (Some sub),
        PubSub (<[k := {[s]}]> (ps_keys p)) (ps_sessions p) (ps_fresh p) (ps_closed p))
    end
  | TSubKey _ _ r => Some (TReturned (RSubscribe r), p)
  | TUnsubscribe k s => Some (TUnsubKey k s, p)
  | TUnsubKey k s =>
    match ps_keys p !! k with
    | Some x => Some (TUnsubbed k s (bool_decide (s ∈ x)),
        PubSub (<[k := x ∖ {[s]}]> (ps_keys p)) (ps_sessions p) (ps_fresh p) (ps_closed p))
    | None => Some (TUnsubbed k s false, p)
    end
  | TUnsubbed k s b => Some (TUnsubSession k s b, p)
  | TUnsubSession k s b =>
    match ps_sessions p !! s with
    | Some m => Some (TReturned (RUnsubscribe (b || match m !! k with Some _ => true | None => false end)),
        PubSub (ps_keys p) (<[s := delete k m]> (ps_sessions p)) (ps_fresh p) (ps_closed p))
    | None => Some (TReturned (RUnsubscribe (b || false)), p)
    end
  | TRemove s => Some (TRemoving s, p)
  | TRemoving s =>
    match ps_sessions p !! s with
    | None => Some (TReturned (RRemove false), p)
    | Some m => Some (TClosing (map_to_list m).*2,
        PubSub (ps_keys p) (delete s (ps_sessions p)) (ps_fresh p) (ps_closed p))
    end
  | TClosing [] => Some (TReturned (RRemove true), p)
  | TClosing (x :: l) => Some (TClosing l,
      PubSub (ps_keys p) (ps_sessions p) (ps_fresh p) ({[x]} ∪ ps_closed p))
  | TReturned _ => None
  end.

(** The threads, clones of one manager; engine/src/pubsub/manager.rs:12-13. *)
Definition ps_pool : Type := list ps_thread * pubsub.

(** A step of thread [i]; [None] when it has returned or must wait;
    engine/src/pubsub/manager.rs:17-90. *)
Definition ps_step (sh : sharding) (i : nat) (x : ps_pool) : option ps_pool :=
  match x.1 !! i with
  | None => None
  | Some t =>
    if granted sh x.1 t
    then match ps_act t x.2 with
         | Some (t', p) => Some (<[i := t']> x.1, p)
         | None => None
         end
    else None
  end.

(** A schedule; engine/src/pubsub/manager.rs:17-90. *)
Fixpoint ps_run (sh : sharding) (sched : list nat) (x : ps_pool) : option ps_pool :=
  match sched with
  | [] => Some x
  | i :: r => match ps_step sh i x with Some x => ps_run sh r x | None => None end
  end.

(** Threads about to make these calls; engine/src/pubsub/manager.rs:12-13. *)
Definition ps_begin (calls : list ps_call) : ps_pool := (map ps_start calls, pubsub_new).
