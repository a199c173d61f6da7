(** What a call that reads was told was so while it ran (C123). *)
From Verif Require Import Locks LockSpec LockScripts LockScriptSpec.
From Verif Require Import Bytes Value CommandId Request RequestSpec Response Metrics Prog Commands HistorySpec
  MomentSpec Client ClientSpec ClientProps MemTasks MemTaskSpec.
From stdpp Require Import gmap list.

(** The call has begun and has not returned. *)
Definition running (x : lsystem) (b : nat * nat) : Prop :=
  exists cl, x.1 !! b.1 = Some cl /\ length (lc_done cl) = b.2 /\ lc_now cl <> None.

(** [y] is the system at a moment while the call ran, and nobody was writing to the shard of the key. *)
Definition seen (sh : shards) (scripts : list (list call)) (s0 : store) (sched : list (nat * list value))
  (b : nat * nat) (k : bytes) (y : lsystem) : Prop :=
  exists n, n <= length sched /\ lsys_run sh (take n sched) (lbegin scripts s0) = Some y /\
    running y b /\ unlocked sh y k.

(** What the data were in that system, with no call counted. *)
Definition data_of (y : lsystem) : store := Store (st_keys y.2) ∅.

(** The commands that read one key. *)
Definition reads_one (cmd : command_id) : Prop :=
  cmd = CGet \/ cmd = CType \/ cmd = CLength \/ cmd = CKeys.

(** The type of the key was first [o], then that of [w]. *)
Definition other_type (o : option value) (w : value) : Prop := kind <$> o <> Some (kind w).

(** What is said of a command that reads one key. *)
Definition told_one (sh : shards) (scripts : list (list call)) (s0 : store) (sched : list (nat * list value))
  (b : nat * nat) (c : call) (k : bytes) (r : cres) : Prop :=
  (exists y, seen sh scripts s0 sched b k y /\ r = (dispatch (c_env c) (data_of y) (c_req c) (c_res c)).2) \/
  (r_key_type (c_req c) = None /\ (r_command (c_req c) = CLength \/ r_command (c_req c) = CKeys) /\
   r = CErr EKeyTypeDifferent (c_res c) /\
   exists y z v, seen sh scripts s0 sched b k y /\ seen sh scripts s0 sched b k z /\
     st_keys z.2 !! k = Some v /\ other_type (st_keys y.2 !! k) v) \/
  (forall s, room s -> r = (dispatch (c_env c) s (c_req c) (c_res c)).2).

(** The same for tasks that share a memory client. *)
Definition task_seen (sh : shards) (tasks : list task) (s0 : store) (sched : list (nat * list value))
  (a : nat * nat) (k : bytes) (y : lsystem) : Prop :=
  exists n, n <= length sched /\ at_work sh tasks s0 (take n sched) = Some y /\
    ~ ahead tasks y a /\ (forall r, ~ got tasks y a r) /\ unlocked sh y k.

Definition reads_one_key (c : client_call) (k : bytes) : Prop :=
  c = KGet k \/ (exists t, c = KGetTyped k t) \/ c = KKeyType k \/ (exists t, c = KLength k t) \/ c = KKeys k.

(** The call asks whether all of [ks] are there, or are there with a type. *)
Definition asks_whether (c : client_call) (t : option key_type) (ks : list bytes) : Prop :=
  match t with None => c = KExists ks | Some t => c = KIs t ks end.

(** A typed get of a value of another type. *)
Definition wrong_kind (c : client_call) (v : value) : bool :=
  match c with KGetTyped _ t => negb (bool_decide (kind v = t)) | _ => false end.
