(** Where the data that tasks read through a shared memory client comes from (C112). *)
From Verif Require Import Bytes Value Request Response RespContext Metrics Prog WireSpec ClientSpec MemTasks MemTaskSpec
  MemAppendSpec MemRaceSpec OriginSpec.
From stdpp Require Import gmap list.

(** A task sets the key to, or appends to it, a value with this word in it. *)
Definition task_gives (tasks : list task) (k w : bytes) : Prop :=
  exists e c v, made_by_one tasks e c /\ (sets_value c k v \/ appends_value c k v) /\ in_value v w.

(** The words that may get to a key: they were there, a task puts them there, or they may get to a key that a
    task renames to it. *)
Inductive task_origin (tasks : list task) (s0 : store) : bytes -> bytes -> Prop :=
| task_origin_stored k v w : st_keys s0 !! k = Some v -> in_value v w -> task_origin tasks s0 k w
| task_origin_given k w : task_gives tasks k w -> task_origin tasks s0 k w
| task_origin_renamed e a b w : made_by_one tasks e (KRename a b) -> task_origin tasks s0 a w ->
    task_origin tasks s0 b w.

(** The words that may be in what a call returns. *)
Definition may_return (tasks : list task) (s0 : store) (c : client_call) (w : bytes) : Prop :=
  match c with
  | KAppend k _ | KAppendTyped k _ | KSet k _ | KSetTyped k _ | KGet k | KGetTyped k _ | KKeys k =>
    task_origin tasks s0 k w
  | KEcho b => w = b
  | KDelete k => w = k
  | KRename a b => w = a \/ w = b
  | _ => False
  end.

(** A reply is about a value. *)
Definition reply_of (p : reply) (v : value) : Prop :=
  match p with
  | RpValue w => v = w
  | RpBytes b => v = VBytes b
  | RpItems l => v = VList l
  | RpBool b => v = VBoolean b
  | RpInt z => v = VInteger z
  | RpType _ | RpStats _ _ _ _ => True
  end.

(** [u] is read from the message that answers [v]. *)
Definition read_from (e : env) (v u : value) : Prop :=
  (resp_feed (debug e) resp_ctx_new (resp_frame e (RValue v))).2 = PConcluded (RValue u).
