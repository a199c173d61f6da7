(** Several commands at the same time, with the locks of the store.

    [State] (engine/src/state/mod.rs:46-50) and the counters (lib/metrics/src/lib.rs:51-55) are
    [DashMap]s: each is split into shards behind reader-writer locks; [get] and [contains_key]
    take the shard of their key for reading; [get_mut], [insert], [remove] and [entry] take it for
    writing; a reference that is returned keeps it until dropped.  A value is changed in place
    through such a reference, bit by bit (e.g. engine/src/command/impl/append.rs:17-24).  Which
    keys share a shard is left open, and so is what the value looks like in between.

    No command uses the store while it has a reference: [State::key_type]
    (engine/src/state/mod.rs:207-209) drops its own, [key_ref] and [key_or_insert_with] are the
    last uses in engine/src/command/impl/*.rs, and [Hop::dispatch] increments the counter after the
    command has returned (engine/src/hop.rs:170-197). *)
From Verif Require Import Bytes Value Metrics Prog Concurrent.
From stdpp Require Import gmap list.
From Coq Require Import NArith.

(** How keys and counters are spread over shards; [DashMap::determine_map], used by
    engine/src/state/mod.rs:49 and lib/metrics/src/lib.rs:53. *)
Record shards := Shards { key_shard : bytes -> N; counter_shard : metric -> N }.

(** The lock of a shard of the keys or of the counters; engine/src/state/mod.rs:49,
    lib/metrics/src/lib.rs:53. *)
Inductive shard_lock := KeyLock (shard : N) | CounterLock (shard : N).
Global Instance shard_lock_eq_dec : EqDecision shard_lock.
Proof. solve_decision. Defined.

(** The lock the next operation takes; [true] is for writing.  [contains_key] and [get]:
    engine/src/state/mod.rs:71, 135, 208; [insert]: 87, 186; [remove]: 107; [get_mut]: 181;
    [get] and [entry] of the counters: lib/metrics/src/lib.rs:184, 247. *)
Definition needs (sh : shards) (p : prog) : option (shard_lock * bool) :=
  match p with
  | PRet _ => None
  | PContains k _ | PGet k _ => Some (KeyLock (key_shard sh k), false)
  | PInsert k _ _ | PRemove k _ | PKoi k _ _ _ | PKoiIns k _ _ _ =>
    Some (KeyLock (key_shard sh k), true)
  | PCounter m _ => Some (CounterLock (counter_shard sh m), false)
  | PIncr _ m _ => Some (CounterLock (counter_shard sh m), true)
  end.

(** Where a thread is; engine/src/hop.rs:170-197.
    - [TIdle p]: has no lock; [p] is what is left to do
    - [TGuard p]: has the lock for the next operation of [p]
    - [TUpdate p v mid]: is changing, through the reference of [key_or_insert_with], what was [v];
      [mid] are the states the value is still going through
    - [TDone p g]: the operation is done, the lock [g] not yet released *)
Inductive lthread :=
| TIdle (p : prog)
| TGuard (p : prog)
| TUpdate (p : prog) (v : value) (mid : list value)
| TDone (p : prog) (g : shard_lock * bool).

(** The lock a thread has; the lifetimes of the references of engine/src/state/mod.rs:128-192. *)
Definition holding (sh : shards) (t : lthread) : option (shard_lock * bool) :=
  match t with
  | TIdle _ => None
  | TGuard p | TUpdate p _ _ => needs sh p
  | TDone _ g => Some g
  end.

(** A reader-writer lock excludes a writer from everyone else; [DashMap],
    engine/src/state/mod.rs:49. *)
Definition in_the_way (a b : shard_lock * bool) : bool := bool_decide (a.1 = b.1) && (a.2 || b.2).

(** Nobody has a lock in the way; engine/src/state/mod.rs:49. *)
Definition free_for (sh : shards) (ts : list lthread) (a : shard_lock * bool) : bool :=
  forallb (fun t => match holding sh t with Some b => negb (in_the_way a b) | None => true end) ts.

(** A step of a thread that need not wait.  [mid] is used when an update begins: the states the
    value will go through.  Without a key [get_mut] returns nothing and keeps no lock
    (engine/src/state/mod.rs:180-191).  A panic in an update drops the reference like a return. *)
Definition lact (sh : shards) (t : lthread) (s : store) (mid : list value)
  : option (lthread * store) :=
  match t with
  | TIdle p => match needs sh p with Some _ => Some (TGuard p, s) | None => None end
  | TGuard p =>
    match needs sh p with
    | None => None
    | Some g =>
      match p with
      | PKoi k _ _ _ =>
        match st_keys s !! k with
        | Some v => Some (TUpdate p v mid, s)
        | None => match pstep p s with Some (p', s') => Some (TDone p' g, s') | None => None end
        end
      | _ => match pstep p s with Some (p', s') => Some (TDone p' g, s') | None => None end
      end
    end
  | TUpdate (PKoi k d u c) v (x :: mid) =>
    Some (TUpdate (PKoi k d u c) v mid, with_keys s (<[k := x]> (st_keys s)))
  | TUpdate (PKoi k d u c) v [] =>
    let '(v', r) := u v in
    Some (TDone (c r) (KeyLock (key_shard sh k), true), with_keys s (<[k := v']> (st_keys s)))
  | TUpdate _ _ _ => None
  | TDone p _ => Some (TIdle p, s)
  end.

(** The threads and the store; clones of one [Hop], engine/src/hop.rs:148-149. *)
Definition lpool : Type := list lthread * store.

(** A step of thread [i]; [None] when it has returned or must wait; engine/src/hop.rs:170-197. *)
Definition lstep (sh : shards) (i : nat) (mid : list value) (x : lpool) : option lpool :=
  match x.1 !! i with
  | None => None
  | Some t =>
    if match t with
       | TIdle p => match needs sh p with Some g => free_for sh x.1 g | None => true end
       | _ => true
       end
    then match lact sh t x.2 mid with
         | Some (t', s) => Some (<[i := t']> x.1, s)
         | None => None
         end
    else None
  end.

(** A schedule: who moves, and how the value changes if an update begins; engine/src/hop.rs:170-197. *)
Fixpoint lrun (sh : shards) (sched : list (nat * list value)) (x : lpool) : option lpool :=
  match sched with
  | [] => Some x
  | (i, mid) :: r => match lstep sh i mid x with Some x => lrun sh r x | None => None end
  end.
