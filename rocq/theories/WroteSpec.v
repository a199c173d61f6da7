(** What a call that changes a key was told was so when it changed it (C124). *)
From Verif Require Import Locks LockSpec LockScripts LockScriptSpec.
From Verif Require Import Bytes Value CommandId Request RequestSpec Response Metrics Prog Commands HistorySpec
  MomentSpec Client ClientSpec ClientProps MemTasks MemTaskSpec SeenSpec.
From stdpp Require Import gmap list.

(** After [n] steps, while the call ran, the key held this ([None]: it was not there), and nobody was writing to
    its shard. *)
Definition noticed (sh : shards) (scripts : list (list call)) (s0 : store) (sched : list (nat * list value))
  (b : nat * nat) (k : bytes) (n : nat) (o : option value) : Prop :=
  n <= length sched /\
  exists y, lsys_run sh (take n sched) (lbegin scripts s0) = Some y /\
    running y b /\ unlocked sh y k /\ st_keys y.2 !! k = o.

(** The call has the lock for writing to the key. *)
Definition writing (sh : shards) (x : lsystem) (b : nat * nat) (k : bytes) : Prop :=
  exists cl, x.1 !! b.1 = Some cl /\ length (lc_done cl) = b.2 /\
    holding sh (lc_thread cl) = Some (KeyLock (key_shard sh k), true).

(** Between [n] and [n'] steps the call changed what the key held from [o] to [o'], having it to itself all the
    time in between. *)
Definition replaced (sh : shards) (scripts : list (list call)) (s0 : store) (sched : list (nat * list value))
  (b : nat * nat) (k : bytes) (n n' : nat) (o o' : option value) : Prop :=
  S n < n' /\ noticed sh scripts s0 sched b k n o /\ noticed sh scripts s0 sched b k n' o' /\
  forall m z, n < m -> m < n' -> lsys_run sh (take m sched) (lbegin scripts s0) = Some z -> writing sh z b k.

(** The call came upon [o] and left [o'], and changed the key no more after that. *)
Definition acted (sh : shards) (scripts : list (list call)) (s0 : store) (sched : list (nat * list value))
  (b : nat * nat) (k : bytes) (o o' : option value) : Prop :=
  exists n', (forall m m' p p', replaced sh scripts s0 sched b k m m' p p' -> m' <= n') /\
    ((exists n, replaced sh scripts s0 sched b k n n' o o') \/ (o' = o /\ noticed sh scripts s0 sched b k n' o)).

(** Data with nothing but what is at one key, and no call counted. *)
Definition just (k : bytes) (o : option value) : store :=
  Store (match o with Some v => {[k := v]} | None => ∅ end) ∅.

(** The commands that change one key. *)
Definition changes_one (cmd : command_id) : Prop :=
  cmd = CIncrement \/ cmd = CDecrement \/ cmd = CIncrementBy \/ cmd = CDecrementBy \/ cmd = CDelete \/
  cmd = CAppend \/ cmd = CSet.

(** What is said of a command that changes one key. *)
Definition told_writer (sh : shards) (scripts : list (list call)) (s0 : store) (sched : list (nat * list value))
  (b : nat * nat) (c : call) (k : bytes) (r : cres) : Prop :=
  (exists o o', acted sh scripts s0 sched b k o o' /\
     let out := dispatch (c_env c) (just k o) (c_req c) (c_res c) in
     r = out.2 /\ (r <> CPanic -> o' = st_keys out.1 !! k)) \/
  (r = CErr EKeyTypeDifferent (c_res c) /\ exists n v, noticed sh scripts s0 sched b k n (Some v) /\
     match r_key_type (c_req c) with
     | Some t => r_command (c_req c) = CSet /\ kind v <> t
     | None => (r_command (c_req c) = CSet \/ r_command (c_req c) = CAppend) /\
       exists m o, m <= n /\ noticed sh scripts s0 sched b k m o /\ other_type o v
     end) \/
  (forall s, room s -> let out := dispatch (c_env c) s (c_req c) (c_res c) in
     r = out.2 /\ st_keys out.1 = st_keys s).

(** What is said of a rename of [k] to [d].  Putting the value at [d] is the last thing it does. *)
Definition told_renamer (sh : shards) (scripts : list (list call)) (s0 : store) (sched : list (nat * list value))
  (b : nat * nat) (c : call) (k d : bytes) (r : cres) : Prop :=
  match r with
  | CErr err out => out = c_res c /\
    ((err = EKeyNonexistent /\ exists n, noticed sh scripts s0 sched b k n None) \/
     (err = EPreconditionFailed /\ exists n m v w, n <= m /\ noticed sh scripts s0 sched b k n (Some v) /\
        noticed sh scripts s0 sched b d m (Some w)))
  | _ => responds (c_env c) (c_res c) (VBytes d) r /\
    exists m n n' i i' v o, m <= n /\ n' <= i /\ noticed sh scripts s0 sched b d m None /\
      replaced sh scripts s0 sched b k n n' (Some v) None /\ replaced sh scripts s0 sched b d i i' o (Some v) /\
      forall l j j' p p', replaced sh scripts s0 sched b l j j' p p' -> j' <= i'
  end.

(** The same for tasks that share a memory client. *)
Definition task_running (tasks : list task) (x : lsystem) (a : nat * nat) : Prop :=
  ~ ahead tasks x a /\ forall r, ~ got tasks x a r.

Definition task_noticed (sh : shards) (tasks : list task) (s0 : store) (sched : list (nat * list value))
  (a : nat * nat) (k : bytes) (n : nat) (o : option value) : Prop :=
  n <= length sched /\
  exists y, at_work sh tasks s0 (take n sched) = Some y /\
    task_running tasks y a /\ unlocked sh y k /\ st_keys y.2 !! k = o.

Definition task_writing (sh : shards) (tasks : list task) (x : lsystem) (a : nat * nat) (k : bytes) : Prop :=
  task_running tasks x a /\
  exists cl, x.1 !! a.1 = Some cl /\ holding sh (lc_thread cl) = Some (KeyLock (key_shard sh k), true).

Definition task_replaced (sh : shards) (tasks : list task) (s0 : store) (sched : list (nat * list value))
  (a : nat * nat) (k : bytes) (n n' : nat) (o o' : option value) : Prop :=
  S n < n' /\ task_noticed sh tasks s0 sched a k n o /\ task_noticed sh tasks s0 sched a k n' o' /\
  forall m z, n < m -> m < n' -> at_work sh tasks s0 (take m sched) = Some z -> task_writing sh tasks z a k.

Definition task_acted (sh : shards) (tasks : list task) (s0 : store) (sched : list (nat * list value))
  (a : nat * nat) (k : bytes) (o o' : option value) : Prop :=
  exists n', (forall m m' p p', task_replaced sh tasks s0 sched a k m m' p p' -> m' <= n') /\
    ((exists n, task_replaced sh tasks s0 sched a k n n' o o') \/ (o' = o /\ task_noticed sh tasks s0 sched a k n' o)).

(** The call sets the key to [w]. *)
Definition sets_to (c : client_call) (k : bytes) (w : value) : Prop := c = KSet k w \/ c = KSetTyped k w.

(** The calls that change one key. *)
Definition changes_key (c : client_call) (k : bytes) : Prop :=
  (exists w, sets_to c k w) \/ (exists w, c = KAppend k w \/ c = KAppendTyped k w) \/
  (exists t, c = KIncrement k t \/ c = KDecrement k t) \/ (exists w, c = KIncrementBy k w \/ c = KDecrementBy k w) \/
  (exists n, c = KIncrementInt k n \/ c = KDecrementInt k n) \/
  (exists x, c = KIncrementFloat k x \/ c = KDecrementFloat k x) \/ c = KDelete k.
