(** The engine's shared state and programs over it.

    A command is a program whose steps are the operations on the shared
    [DashMap]s that are atomic in the code: one shard lock is taken and released
    per step ([contains_key], [get] with its guard, [insert], [remove], the body
    run under one [get_mut] guard, one counter read, one counter increment).
    Pure computation between two such operations belongs to the step before it.
    The same program has a sequential meaning ([run]) and is the unit of
    interleaving in the concurrent model ([pstep]). *)
From Verif Require Import Bytes Value CommandId Metrics.
From stdpp Require Import gmap list.
From Coq Require Import NArith.
From Coq.Strings Require Import String.
Open Scope string_scope.

(** [State] (engine/src/state/mod.rs:47-49) and the counters of [Metrics]
    (lib/metrics/src/lib.rs:50-55) held by [HopRef] (engine/src/hop.rs:121-129).
    No command writes a gauge. *)
Record store := Store {
  st_keys : gmap bytes value;
  st_counters : gmap metric N
}.

(** The state of a new engine, engine/src/hop.rs:131-145 *)
Definition store_new : store := Store ∅ ∅.

(** [DispatchResult<()>] (engine/src/command/mod.rs) with the response buffer as
    the command leaves it, or a panic. *)
Inductive cres :=
| COk (res : bytes)
| CErr (err : dispatch_error) (res : bytes)
| CPanic.

(** [Ok(())] with the response written, or [Err], engine/src/command/mod.rs:18-20. *)
Definition cres_of (x : outcome bytes) : cres :=
  match x with Ok b => COk b | Panic => CPanic end.

(** A command ([Dispatch::dispatch], e.g. engine/src/command/impl/set.rs:125-150) cut at its operations on
    the [DashMap] of engine/src/state/mod.rs:49. *)
Inductive prog :=
| PRet (r : cres)
| PContains (k : bytes) (cont : bool -> prog)
| PGet (k : bytes) (cont : option value -> prog)
| PInsert (k : bytes) (v : value) (cont : prog)
| PRemove (k : bytes) (cont : option value -> prog)
| PKoi (k : bytes) (dflt : value) (upd : value -> value * cres)
       (cont : cres -> prog)
| PKoiIns (k : bytes) (dflt : value) (upd : value -> value * cres)
          (cont : cres -> prog)
| PCounter (m : metric) (cont : option N -> prog)
| PIncr (dbg : bool) (m : metric) (cont : prog).

(** Sequencing; the [;] and [?] of Rust, as in engine/src/hop.rs:170-197. *)
Fixpoint pbind (p : prog) (f : cres -> prog) : prog :=
  match p with
  | PRet r => f r
  | PContains k c => PContains k (fun b => pbind (c b) f)
  | PGet k c => PGet k (fun v => pbind (c v) f)
  | PInsert k v c => PInsert k v (pbind c f)
  | PRemove k c => PRemove k (fun v => pbind (c v) f)
  | PKoi k d u c => PKoi k d u (fun r => pbind (c r) f)
  | PKoiIns k d u c => PKoiIns k d u (fun r => pbind (c r) f)
  | PCounter m c => PCounter m (fun n => pbind (c n) f)
  | PIncr dbg m c => PIncr dbg m (pbind c f)
  end.

(** The store with other keys; the [State] of engine/src/state/mod.rs:49. *)
Definition with_keys (s : store) (ks : gmap bytes value) : store :=
  Store ks (st_counters s).

(** One atomic step; [None] when the program has returned.
    - [PContains]: [State::contains_key], engine/src/state/mod.rs:70-72
    - [PGet]: [DashMap::get] in [State::key_ref] and [State::key_type],
      engine/src/state/mod.rs:128-136, 207-209
    - [PInsert]: [State::insert], engine/src/state/mod.rs:86-88
    - [PRemove]: [State::remove], engine/src/state/mod.rs:106-108
    - [PKoi], [PKoiIns]: the loop of [State::key_or_insert_with],
      engine/src/state/mod.rs:180-191; [PKoi] is about to call [get_mut], and on
      a present key runs the caller's update under the guard; [PKoiIns] is about
      to call [insert] with the default value, overwriting whatever is there,
      and goes round the loop
    - [PCounter]: [Reader::counter], lib/metrics/src/lib.rs:181-185
    - [PIncr]: [Writer::increment], lib/metrics/src/lib.rs:243-250 *)
Definition pstep (p : prog) (s : store) : option (prog * store) :=
  match p with
  | PRet _ => None
  | PContains k c =>
    Some (c (match st_keys s !! k with Some _ => true | None => false end), s)
  | PGet k c => Some (c (st_keys s !! k), s)
  | PInsert k v c => Some (c, with_keys s (<[k := v]> (st_keys s)))
  | PRemove k c =>
    Some (c (st_keys s !! k), with_keys s (delete k (st_keys s)))
  | PKoi k d u c =>
    match st_keys s !! k with
    | Some v => let '(v', r) := u v in
                Some (c r, with_keys s (<[k := v']> (st_keys s)))
    | None => Some (PKoiIns k d u c, s)
    end
  | PKoiIns k d u c => Some (PKoi k d u c, with_keys s (<[k := d]> (st_keys s)))
  | PCounter m c => Some (c (st_counters s !! m), s)
  | PIncr dbg m c =>
    match counters_increment dbg (st_counters s) m with
    | Ok cs => Some (c, Store (st_keys s) cs)
    | Panic => Some (PRet CPanic, s)
    end
  end.

(** The program run alone to its end: the sequential semantics.  It is the
    small-step semantics above iterated ([ProgFacts.run_psteps]);
    e.g. engine/src/command/impl/set.rs:125-150. *)
Fixpoint run (p : prog) (s : store) : store * cres :=
  match p with
  | PRet r => (s, r)
  | PContains k c =>
    run (c (match st_keys s !! k with Some _ => true | None => false end)) s
  | PGet k c => run (c (st_keys s !! k)) s
  | PInsert k v c => run c (with_keys s (<[k := v]> (st_keys s)))
  | PRemove k c =>
    run (c (st_keys s !! k)) (with_keys s (delete k (st_keys s)))
  | PKoi k d u c =>
    let '(v', r) := u (default d (st_keys s !! k)) in
    run (c r) (with_keys s (<[k := v']> (st_keys s)))
  | PKoiIns k d u c =>
    let '(v', r) := u d in
    run (c r) (with_keys s (<[k := v']> (st_keys s)))
  | PCounter m c => run (c (st_counters s !! m)) s
  | PIncr dbg m c =>
    match counters_increment dbg (st_counters s) m with
    | Ok cs => run c (Store (st_keys s) cs)
    | Panic => (s, CPanic)
    end
  end.

(** ** The guarded accesses of [State] *)

(** The reserved prefix, engine/src/state/mod.rs:129, 143, 174 *)
Definition reserved_prefix : bytes := lit "__hop__:".

(** The two checks of engine/src/state/mod.rs:129-133, 143-147, 174-178. *)
Definition guarded (e : env) (k : bytes) (p : prog) : prog :=
  if starts_with k reserved_prefix then PRet CPanic
  else if debug e && (lenN k =? 0)%N then PRet CPanic
  else p.

(** [State::key_ref], engine/src/state/mod.rs:128-136 *)
Definition key_ref (e : env) (k : bytes) (cont : option value -> prog) : prog :=
  guarded e k (PGet k cont).

(** [State::key_or_insert_with] and the use of its guard,
    engine/src/state/mod.rs:169-192 *)
Definition key_or_insert_with (e : env) (k : bytes) (dflt : value)
  (upd : value -> value * cres) : prog :=
  guarded e k (PKoi k dflt upd PRet).
