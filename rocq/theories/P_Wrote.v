(** What a call that changes a key is told was so when it changed it: C124.
    The vocabulary is in [WroteSpec]; clients that issue one call after another, with the map's locks, in
    [LockScripts]; tasks that share a memory client in [MemTasks]. *)
From Coq Require Import String.
From Verif Require Import Locks LockSpec LockScripts LockScriptSpec.
From Verif Require Import Bytes BytesFacts Utf8 Float64 Value CommandId Request RequestSpec Response RespContext WireSpec
  EngineSpec Metrics Prog Commands HistorySpec EngineProps ConcSpec Scripts LinSpec KeyLinSpec MomentSpec
  Client ClientSpec ClientProps MemTasks MemTaskSpec SeenSpec WroteSpec WroteFacts.
From stdpp Require Import gmap list.
From Coq Require Import NArith ZArith Lia.

(** C124: whatever the other clients do, with the map's locks and values changing bit by bit, a command that
    changes one key returns what it would return if it were made alone on what it came upon there, and leaves what
    it would leave then, and has the key to itself from the one to the other, and changes it no more afterwards.  Otherwise Set reports another type,
    and then a value of another type was there while it ran, or, without a type, Set and Append do, and then the
    key changed its type while they ran; or the command does what it does on any data, which changes no key. *)
Theorem C124_one :
  forall sh scripts s0 sched x b c k r,
  room_for_all scripts s0 -> lsys_run sh sched (lbegin scripts s0) = Some x -> call_at scripts b = Some c ->
  changes_one (r_command (c_req c)) -> arg (c_req c) 0 = Some k -> ordinary k -> lreturned x b r ->
  told_writer sh scripts s0 sched b c k r.
Proof. exact c124_one. Qed.
Print Assumptions C124_one.

(** C124: Rename reports that the key does not exist only if it was not there while it ran, and that a
    precondition failed only if the key was there and then the destination was.  Otherwise it took away the value
    that was at the key, and afterwards put that same value at the destination, which it had seen not to be there
    before, and did nothing more. *)
Theorem C124_rename :
  forall sh scripts s0 sched x b c k d r,
  room_for_all scripts s0 -> lsys_run sh sched (lbegin scripts s0) = Some x -> call_at scripts b = Some c ->
  env_ok (c_env c) -> r_command (c_req c) = CRename -> r_key_type (c_req c) = None ->
  arg (c_req c) 0 = Some k -> arg (c_req c) 1 = Some d -> lreturned x b r ->
  told_renamer sh scripts s0 sched b c k d r.
Proof. exact c124_rename. Qed.
Print Assumptions C124_rename.

(** C124: the intervals in which two calls change a key do not overlap: no call changes what another one came upon. *)
Theorem C124_apart :
  forall sh scripts s0 sched x k a b n1 n1' o1 o1' n2 n2' o2 o2',
  lsys_run sh sched (lbegin scripts s0) = Some x -> a <> b ->
  replaced sh scripts s0 sched a k n1 n1' o1 o1' -> replaced sh scripts s0 sched b k n2 n2' o2 o2' ->
  n1' <= n2 \/ n2' <= n1.
Proof. exact c124_apart. Qed.
Print Assumptions C124_apart.

(** Two clients add to one integer and rename it; two others set one key to values of two types, and one of
    them is told that the type is different. *)
Definition a_store : store := store_of [(lit "k", VList [lit "x"]); (lit "n", VInteger 5)].
Definition some_tasks : list task :=
  [[(env_std true, KIncrementInt (lit "n") (Some 2%Z)); (env_std true, KRename (lit "n") (lit "m"))];
   [(env_std true, KIncrementInt (lit "n") (Some 10%Z)); (env_std true, KRename (lit "n") (lit "m"))];
   [(env_std true, KSet (lit "k") (VInteger 7))];
   [(env_std true, KSet (lit "k") (VBoolean true)); (env_std true, KDelete (lit "k"))]].
Definition some_scripts : list (list call) := map dispatches some_tasks.
Definition one_shard : shards := Shards (fun _ => 0%N) (fun _ => 0%N).
Definition some_schedule : list (nat * list value) :=
  map (fun i => (i, [])) (replicate 1 0 ++ replicate 13 1 ++ replicate 13 0 ++ replicate 3 1 ++ replicate 12 0 ++
    replicate 7 1 ++ replicate 4 2 ++ replicate 10 3 ++ replicate 8 2 ++ replicate 16 3)%nat.
Example C124_nonvacuous :
  room_for_all some_scripts a_store /\
  (exists c, call_at some_scripts (0, 0) = Some c /\ changes_one (r_command (c_req c)) /\
     arg (c_req c) 0 = Some (lit "n") /\ ordinary (lit "n")) /\
  (exists c, call_at some_scripts (1, 1) = Some c /\ r_command (c_req c) = CRename /\ r_key_type (c_req c) = None /\
     arg (c_req c) 0 = Some (lit "n") /\ arg (c_req c) 1 = Some (lit "m")) /\
  match lsys_run one_shard some_schedule (lbegin some_scripts a_store) with
  | Some x => map lc_done x.1 =
      [[COk (write_int [] 17); cres_of (write_bytes (env_std true) [] (lit "m"))];
       [COk (write_int [] 15); CErr EKeyNonexistent []]; [CErr EKeyTypeDifferent []];
       [COk (write_bool [] true); cres_of (write_bytes (env_std true) [] (lit "k"))]]
  | None => False
  end.
Proof.
  split_and!.
  - intros m. by destruct m.
  - eexists. split; [vm_compute; reflexivity|]. split; [right; right; left; reflexivity|].
    split; [reflexivity|]. split; [done|]. by intros [r [=]].
  - eexists. split; [vm_compute; reflexivity|]. by split_and!.
  - vm_compute. reflexivity.
Qed.

(** C124: and so with any number of tasks sharing one memory client: a call that changes one key returns and
    leaves what it would if it were made alone on what it came upon; or a set reports another type, and a value of
    another type than the one it sets was there while it ran; or it does what it does on any data. *)
Theorem C124_tasks :
  forall sh tasks s0 sched x a e c k r,
  sendable tasks -> tasks_fit tasks s0 -> at_work sh tasks s0 sched = Some x ->
  task_call tasks a = Some (e, c) -> changes_key c k -> ordinary k -> refused c = None -> got tasks x a r ->
  (exists o o', task_acted sh tasks s0 sched a k o o' /\
     let out := mem_call e (just k o) c in r = out.2 /\ (r <> RPanic -> o' = st_keys out.1 !! k)) \/
  (r = RErr (CERunningCommand EKeyTypeDifferent) /\
   exists w n v, sets_to c k w /\ task_noticed sh tasks s0 sched a k n (Some v) /\ kind v <> kind w) \/
  (forall s, room s -> let out := mem_call e s c in r = out.2 /\ st_keys out.1 = st_keys s).
Proof. exact c124_tasks. Qed.
Print Assumptions C124_tasks.

(** C124: what adding to an integer returns is what it left at the key, and that is the amount more than what it
    came upon there. *)
Theorem C124_add :
  forall sh tasks s0 sched x a e k n r,
  sendable tasks -> tasks_fit tasks s0 -> at_work sh tasks s0 sched = Some x ->
  task_call tasks a = Some (e, KIncrementInt k n) -> i64_range (default 1%Z n) -> ordinary k -> got tasks x a r ->
  exists o o', task_acted sh tasks s0 sched a k o o' /\
  match default (VInteger 0) o with
  | VInteger z =>
    let sum := (z + default 1%Z n)%Z in
    if decide (i64_range sum) then o' = Some (VInteger sum) /\ r = ROk (RpValue (VInteger sum))
    else if debug e then r = RPanic
    else o' = Some (VInteger (i64_wrap sum)) /\ r = ROk (RpValue (VInteger (i64_wrap sum)))
  | _ => o' = o /\ r = RErr (CERunningCommand EKeyTypeDifferent)
  end.
Proof. exact c124_add. Qed.
Print Assumptions C124_add.

(** C124: a rename by a task, likewise. *)
Theorem C124_tasks_rename :
  forall sh tasks s0 sched x a e k d r,
  sendable tasks -> tasks_fit tasks s0 -> at_work sh tasks s0 sched = Some x ->
  task_call tasks a = Some (e, KRename k d) -> k <> [] -> d <> [] -> got tasks x a r ->
  (r = RErr (CERunningCommand EKeyNonexistent) /\ exists n, task_noticed sh tasks s0 sched a k n None) \/
  (r = RErr (CERunningCommand EPreconditionFailed) /\ exists n m v w, n <= m /\
     task_noticed sh tasks s0 sched a k n (Some v) /\ task_noticed sh tasks s0 sched a d m (Some w)) \/
  ((sound (VBytes d) -> r = ROk (RpBytes d)) /\
   exists m n n' i i' v o, m <= n /\ n' <= i /\ task_noticed sh tasks s0 sched a d m None /\
     task_replaced sh tasks s0 sched a k n n' (Some v) None /\ task_replaced sh tasks s0 sched a d i i' o (Some v) /\
     forall l j j' p p', task_replaced sh tasks s0 sched a l j j' p p' -> j' <= i').
Proof. exact c124_tasks_rename. Qed.
Print Assumptions C124_tasks_rename.

(** C124: and the intervals in which two calls of tasks change a key do not overlap. *)
Theorem C124_tasks_apart :
  forall sh tasks s0 sched x k a b e c e' c' n1 n1' o1 o1' n2 n2' o2 o2',
  sendable tasks -> at_work sh tasks s0 sched = Some x ->
  task_call tasks a = Some (e, c) -> refused c = None -> task_call tasks b = Some (e', c') -> refused c' = None -> a <> b ->
  task_replaced sh tasks s0 sched a k n1 n1' o1 o1' -> task_replaced sh tasks s0 sched b k n2 n2' o2 o2' ->
  n1' <= n2 \/ n2' <= n1.
Proof. exact c124_tasks_apart. Qed.
Print Assumptions C124_tasks_apart.

(** The same by tasks: 5 and 10 is 15, and 2 more is 17; no amount is lost. *)
Example C124_tasks_nonvacuous :
  sendable some_tasks /\ tasks_fit some_tasks a_store /\ ordinary (lit "n") /\ sound (VBytes (lit "m")) /\
  (forall c, c ∈ [KIncrementInt (lit "n") (Some 2%Z); KSet (lit "n") (VInteger 7); KDelete (lit "n")] ->
     changes_key c (lit "n") /\ refused c = None) /\
  match at_work one_shard some_tasks a_store some_schedule with
  | Some x => zip_with (fun h cl => results h (lc_done cl)) some_tasks x.1 =
      [[ROk (RpValue (VInteger 17)); ROk (RpBytes (lit "m"))];
       [ROk (RpValue (VInteger 15)); RErr (CERunningCommand EKeyNonexistent)];
       [RErr (CERunningCommand EKeyTypeDifferent)];
       [ROk (RpValue (VBoolean true)); ROk (RpBytes (lit "k"))]]
  | None => False
  end.
Proof.
  split_and!.
  - intros e c [[i j] H]. unfold task_call in H. cbn [fst snd] in H.
    destruct i as [|[|[|[|i]]]]; cbn in H; try done; destruct j as [|[|[|j]]]; cbn in H; try done; injection H as <- <-;
      (split; [apply env_std_ok|vm_compute; discriminate]).
  - intros m. by destruct m.
  - split; [done|]. by intros [r [=]].
  - apply ClientFacts.sound_key; [done|vm_compute; reflexivity].
  - intros c Hc. rewrite !elem_of_cons in Hc. destruct Hc as [->|[->|[->|[]%elem_of_nil]]]; (split; [|reflexivity]).
    + do 4 right. left. eexists. by left.
    + left. eexists. by left.
    + by do 6 right.
  - vm_compute. reflexivity.
Qed.

(** The second task adds first: between the second and the sixth step it has the integer to itself. *)
Definition in_call (x : lsystem) (b : nat * nat) : bool :=
  match x.1 !! b.1 with
  | Some cl => Nat.eqb (length (lc_done cl)) b.2 && match lc_now cl with Some _ => true | None => false end
  | None => false
  end.
Definition has_lock (x : lsystem) (b : nat * nat) (k : bytes) : bool :=
  match x.1 !! b.1 with
  | Some cl => bool_decide (holding one_shard (lc_thread cl) = Some (KeyLock (key_shard one_shard k), true))
  | None => false
  end.
Definition all_clear (x : lsystem) (k : bytes) : bool :=
  forallb (fun cl => negb (bool_decide (holding one_shard (lc_thread cl) = Some (KeyLock (key_shard one_shard k), true)))) x.1.
Definition at_step (n : nat) (P : lsystem -> bool) : bool :=
  match lsys_run one_shard (take n some_schedule) (lbegin some_scripts a_store) with Some y => P y | None => false end.

Lemma in_call_running x b : in_call x b = true -> running x b.
Proof.
  unfold in_call, running. destruct (x.1 !! b.1) as [cl|]; [|done].
  intros [H1%Nat.eqb_eq H2]%andb_prop. exists cl. split_and!; [done|done|]. by destruct (lc_now cl).
Qed.

Lemma noticed_by_step b k n o : n <= length some_schedule ->
  at_step n (fun y => in_call y b && all_clear y k && bool_decide (st_keys y.2 !! k = o)) = true ->
  noticed one_shard some_scripts a_store some_schedule b k n o.
Proof.
  intros Hn H. split; [done|]. unfold at_step in H. destruct (lsys_run _ _ _) as [y|]; [|done]. exists y.
  apply andb_prop in H as [[H1 H2]%andb_prop H3]. split_and!; [done|by apply in_call_running| |by apply bool_decide_eq_true in H3].
  intros cl Hcl Hh. unfold all_clear in H2. rewrite forallb_forall in H2.
  specialize (H2 cl (proj1 (elem_of_list_In _ _) Hcl)). by rewrite Hh, bool_decide_true in H2.
Qed.

Lemma writing_by_step b k n z : at_step n (fun y => in_call y b && has_lock y b k) = true ->
  lsys_run one_shard (take n some_schedule) (lbegin some_scripts a_store) = Some z -> writing one_shard z b k.
Proof.
  intros H Hz. unfold at_step in H. rewrite Hz in H. apply andb_prop in H as [H1%in_call_running H2].
  destruct H1 as (cl & Hcl & Hd & _). unfold has_lock in H2. rewrite Hcl in H2. exists cl. split_and!; [done|done|].
  by apply bool_decide_eq_true in H2.
Qed.

Example C124_replaced_nonvacuous :
  replaced one_shard some_scripts a_store some_schedule (1, 0) (lit "n") 2 6 (Some (VInteger 5)) (Some (VInteger 15)) /\
  task_replaced one_shard some_tasks a_store some_schedule (1, 0) (lit "n") 2 6 (Some (VInteger 5)) (Some (VInteger 15)).
Proof.
  assert (H : replaced one_shard some_scripts a_store some_schedule (1, 0) (lit "n") 2 6
    (Some (VInteger 5)) (Some (VInteger 15))).
  { split_and!; [lia| | |].
    - apply noticed_by_step; [by apply Nat.leb_le|vm_compute; reflexivity].
    - apply noticed_by_step; [by apply Nat.leb_le|vm_compute; reflexivity].
    - intros m z H1 H2. assert (Hm : m = 3 \/ m = 4 \/ m = 5) by lia.
      destruct Hm as [->|[->| ->]]; apply writing_by_step; vm_compute; reflexivity. }
  split; [exact H|]. eapply replaced_tasks; [|exact H]. split; [done|].
  eexists _, _, _, _. split_and!; [reflexivity|reflexivity|vm_compute; reflexivity|reflexivity].
Qed.
