(** Every value a key ever holds is accounted for by the calls that change it (C125). *)
From Verif Require Import Locks LockSpec LockScripts LockScriptSpec.
From Verif Require Import Bytes Value CommandId Request RequestSpec Response Metrics Prog Commands HistorySpec
  Scripts LinSpec MomentSpec Client ClientSpec ClientProps MemTasks MemTaskSpec SeenSpec WroteSpec.
From stdpp Require Import gmap list.

(** The value of a type that has nothing in it. *)
Definition blank (t : key_type) : value :=
  match t with
  | KTBytes => VBytes [] | KTBoolean => VBoolean false | KTFloat => VFloat 0 | KTInteger => VInteger 0
  | KTString => VString [] | KTList => VList [] | KTMap => VMap ∅ | KTSet => VSet ∅
  end.

(** A request that finds no value may begin with the blank one of this type. *)
Definition begins_as (req : request) (t : key_type) : Prop :=
  match r_command req with
  | CSet | CAppend => r_key_type req = None \/ r_key_type req = Some t
  | _ => t = KTInteger
  end.

(** The type of the value with which the call begins if, after [m] steps, it finds none: the one it names; if it names
    none, the one of what it found at the key when it looked before. *)
Definition goes_by (sh : shards) (scripts : list (list call)) (s0 : store) (sched : list (nat * list value))
  (b : nat * nat) (req : request) (k : bytes) (m : nat) (t : key_type) : Prop :=
  match r_command req with
  | CSet | CAppend =>
    match r_key_type req with
    | Some t' => t = t'
    | None => exists i o, i <= m /\ noticed sh scripts s0 sched b k i o /\
        t = match o with Some v => kind v | None => KTBytes end
    end
  | _ => t = KTInteger
  end.

(** What one change of the key [k] by the call [c], which is call [b] of the clients, can be, if it begins after
    [n] steps.
    - Delete takes the value away.
    - Rename, having found nothing at its destination, takes the value away from its key, and then puts at its
      destination what it took away.
    - The others put the blank value there, having found nothing there before, or what they would leave if they were
      made alone on the value that was there.  Set also takes the value away, to begin with. *)
Definition may_change (sh : shards) (scripts : list (list call)) (s0 : store) (sched : list (nat * list value))
  (b : nat * nat) (c : call) (k : bytes) (n : nat) (o o' : option value) : Prop :=
  let first := arg (c_req c) 0 = Some k in
  match r_command (c_req c) with
  | CDelete => first /\ o' = None
  | CRename =>
    exists k0 d i, arg (c_req c) 0 = Some k0 /\ arg (c_req c) 1 = Some d /\
      i <= n /\ noticed sh scripts s0 sched b d i None /\
      ((k = k0 /\ o' = None) \/
       (k = d /\ exists m m' v, i <= m /\ m' <= n /\ replaced sh scripts s0 sched b k0 m m' (Some v) None /\ o' = Some v))
  | CSet | CAppend | CIncrement | CDecrement | CIncrementBy | CDecrementBy =>
    first /\
    ((r_command (c_req c) = CSet /\ o' = None) \/
     (exists t m, m <= n /\ noticed sh scripts s0 sched b k m None /\
        goes_by sh scripts s0 sched b (c_req c) k m t /\ o' = Some (blank t)) \/
     (exists v, o = Some v /\
        o' = st_keys (dispatch (c_env c) (just k (Some v)) (c_req c) (c_res c)).1 !! k))
  | CExists | CGet | CIs | CType | CLength | CKeys | CEcho | CStats => False
  end.

(** From the time [n1] on, when the key held [o1], to the time [n], when it held [o], the calls changed it one
    after the other, each what the one before had left. *)
Inductive ledger (sh : shards) (scripts : list (list call)) (s0 : store) (sched : list (nat * list value))
  (k : bytes) (n1 : nat) (o1 : option value) : nat -> option value -> Prop :=
| ledger_new n : n1 <= n -> ledger sh scripts s0 sched k n1 o1 n o1
| ledger_entry n m m' b c o o' :
    ledger sh scripts s0 sched k n1 o1 m o ->
    call_at scripts b = Some c -> replaced sh scripts s0 sched b k m m' o o' ->
    may_change sh scripts s0 sched b c k m o o' -> m' <= n ->
    ledger sh scripts s0 sched k n1 o1 n o'.

(** The system after [n] steps: nobody was writing to the shard of the key, which held [o]. *)
Definition held (sh : shards) (scripts : list (list call)) (s0 : store) (sched : list (nat * list value))
  (k : bytes) (n : nat) (o : option value) : Prop :=
  n <= length sched /\
  exists y, lsys_run sh (take n sched) (lbegin scripts s0) = Some y /\ unlocked sh y k /\ st_keys y.2 !! k = o.

(** ** Tasks that share a memory client *)

(** A call on the key that, if it finds no value, begins with the blank one of this type. *)
Definition opens_with (c : client_call) (k : bytes) (t : key_type) : Prop :=
  match c with
  | KSet k' w | KSetTyped k' w | KAppend k' w | KAppendTyped k' w => k' = k /\ t = kind w
  | KIncrement k' _ | KDecrement k' _ | KIncrementBy k' _ | KDecrementBy k' _ | KIncrementInt k' _ | KDecrementInt k' _
  | KIncrementFloat k' _ | KDecrementFloat k' _ => k' = k /\ t = KTInteger
  | _ => False
  end.

(** What one change of the key by a call can be, if it begins after [n] steps. *)
Definition task_may_change (sh : shards) (tasks : list task) (s0 : store) (sched : list (nat * list value))
  (a : nat * nat) (e : env) (c : client_call) (k : bytes) (n : nat) (o o' : option value) : Prop :=
  (c = KDelete k /\ o' = None) \/
  (exists d i, c = KRename k d /\ i <= n /\ task_noticed sh tasks s0 sched a d i None /\ o' = None) \/
  (exists k0 i m m' v, c = KRename k0 k /\ i <= m /\ m' <= n /\ task_noticed sh tasks s0 sched a k i None /\
     task_replaced sh tasks s0 sched a k0 m m' (Some v) None /\ o' = Some v) \/
  (exists w, sets_to c k w /\ o' = None) \/
  (exists t m, opens_with c k t /\ m <= n /\ task_noticed sh tasks s0 sched a k m None /\ o' = Some (blank t)) \/
  (exists t v, opens_with c k t /\ o = Some v /\ o' = st_keys (mem_call e (just k (Some v)) c).1 !! k).

Inductive task_ledger (sh : shards) (tasks : list task) (s0 : store) (sched : list (nat * list value))
  (k : bytes) (n1 : nat) (o1 : option value) : nat -> option value -> Prop :=
| task_ledger_new n : n1 <= n -> task_ledger sh tasks s0 sched k n1 o1 n o1
| task_ledger_entry n m m' a e c o o' :
    task_ledger sh tasks s0 sched k n1 o1 m o ->
    task_call tasks a = Some (e, c) -> task_replaced sh tasks s0 sched a k m m' o o' ->
    task_may_change sh tasks s0 sched a e c k m o o' -> m' <= n ->
    task_ledger sh tasks s0 sched k n1 o1 n o'.

(** The tasks after [n] steps: nobody was writing to the shard of the key, which held [o]. *)
Definition task_held (sh : shards) (tasks : list task) (s0 : store) (sched : list (nat * list value))
  (k : bytes) (n : nat) (o : option value) : Prop :=
  n <= length sched /\
  exists y, at_work sh tasks s0 (take n sched) = Some y /\ unlocked sh y k /\ st_keys y.2 !! k = o.
