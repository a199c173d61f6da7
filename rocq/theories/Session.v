(** Sessions: engine/src/session/mod.rs and engine/src/session/manager.rs *)
From Verif Require Import Bytes Metrics.
From stdpp Require Import gmap list.
From Coq Require Import NArith.

(** [Session], engine/src/session/mod.rs:8-12; the token is 32 bytes. *)
Record session := Session { ss_token : bytes; ss_id : N }.

(** [SessionManagerRef], engine/src/session/manager.rs:10-15, without its
    [metrics_writer]: the counters it writes are the engine's
    ([Prog.st_counters]). *)
Record sessions := Sessions { sm_next : N; sm_live : gmap N session }.

(** [SessionManager::new], engine/src/session/manager.rs:21-27 *)
Definition sessions_new : sessions := Sessions 0 ∅.

(** [wrapping_add(1)] on [u32]; engine/src/session/manager.rs:43. *)
Definition u32_succ (n : N) : N := ((n + 1) mod u32_mod)%N.

(** [SessionManager::add] with nothing else running,
    engine/src/session/manager.rs:29-46: the new managers, counters and the id
    of the returned session, or [None] for a panic ([unreachable!] on an
    occupied id, or the counter's overflow in a debug build).  The guard that is
    returned is taken to be dropped at once. *)
Definition session_add (dbg : bool) (m : sessions) (cs : gmap metric N) (token : bytes)
  : sessions * gmap metric N * option N :=
  match sm_live m !! sm_next m with
  | Some _ => (m, cs, None)
  | None =>
    let live := <[sm_next m := Session token (sm_next m)]> (sm_live m) in
    match counters_increment dbg cs MSessionsStarted with
    | Ok cs => (Sessions (u32_succ (sm_next m)) live, cs, Some (sm_next m))
    | Panic => (Sessions (sm_next m) live, cs, None)
    end
  end.

(** [SessionManager::remove], engine/src/session/manager.rs:48-50 *)
Definition session_remove (m : sessions) (id : N) : sessions * bool :=
  (Sessions (sm_next m) (delete id (sm_live m)),
   match sm_live m !! id with Some _ => true | None => false end).

(** ** Adding from several clones at once

    The atomic steps of [add]: the two loads of [next_id]
    (engine/src/session/manager.rs:30, 32), taking the entry and inserting
    (32-37), the counter (39), the load and the store of [next_id] (41-43), and
    dropping the returned guard, which until then keeps the entry locked.
    Simplification: the lock is taken per id; a [DashMap] locks the id's shard,
    which allows fewer schedules. *)
Inductive add_state :=
| AStart (token : bytes)
| ALoaded (token : bytes) (id : N)             (* session made with [id] *)
| AEntry (token : bytes) (id at_ : N)          (* about to take the entry [at_] *)
| AInserted (at_ : N)                          (* holds the guard of [at_] *)
| ACounted (at_ : N)
| AReload (at_ next : N)                       (* about to store [next + 1] *)
| AStored (at_ : N)
| ADone (id : N)
| APanicked.

(** The shared state: the manager, the counters and the locked ids;
    engine/src/session/manager.rs:11-15; a [RefMut] (line 29) keeps its shard locked. *)
Record add_shared := AddShared {
  as_sessions : sessions; as_counters : gmap metric N; as_locked : gset N
}.

(** One step of one thread; [None] if it is finished or blocked;
    engine/src/session/manager.rs:29-46. *)
Definition add_step (dbg : bool) (a : add_state) (g : add_shared)
  : option (add_state * add_shared) :=
  let m := as_sessions g in
  match a with
  | AStart t => Some (ALoaded t (sm_next m), g)
  | ALoaded t id => Some (AEntry t id (sm_next m), g)
  | AEntry t id at_ =>
    if decide (at_ ∈ as_locked g) then None
    else match sm_live m !! at_ with
    | Some _ => Some (APanicked, g)
    | None => Some (AInserted at_,
                AddShared (Sessions (sm_next m) (<[at_ := Session t id]> (sm_live m)))
                          (as_counters g) ({[at_]} ∪ as_locked g))
    end
  | AInserted at_ =>
    match counters_increment dbg (as_counters g) MSessionsStarted with
    | Ok cs => Some (ACounted at_, AddShared m cs (as_locked g))
    | Panic => Some (APanicked, AddShared m (as_counters g) (as_locked g ∖ {[at_]}))
    end
  | ACounted at_ => Some (AReload at_ (sm_next m), g)
  | AReload at_ n =>
    Some (AStored at_, AddShared (Sessions (u32_succ n) (sm_live m)) (as_counters g)
                                 (as_locked g))
  | AStored at_ => Some (ADone at_, AddShared m (as_counters g) (as_locked g ∖ {[at_]}))
  | ADone _ | APanicked => None
  end.

(** A step of thread [i] among several;
    clones of one [SessionManager], engine/src/session/manager.rs:17-18. *)
Definition adds_step (dbg : bool) (i : nat) (x : list add_state * add_shared)
  : option (list add_state * add_shared) :=
  match x.1 !! i with
  | None => None
  | Some a =>
    match add_step dbg a x.2 with
    | Some (a', g) => Some (<[i := a']> x.1, g)
    | None => None
    end
  end.

(** A schedule: which thread moves next; engine/src/session/manager.rs:29-46. *)
Fixpoint adds_run (dbg : bool) (sched : list nat) (x : list add_state * add_shared)
  : option (list add_state * add_shared) :=
  match sched with
  | [] => Some x
  | i :: r => match adds_step dbg i x with Some x => adds_run dbg r x | None => None end
  end.
