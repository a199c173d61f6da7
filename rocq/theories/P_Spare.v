(** Additions and renames destroy nothing that is there while they run: C128.
    The vocabulary is in [SpareSpec], [LedgerSpec], [WroteSpec] and [SeenSpec]; clients that issue one call after
    another, with the map's locks, in [LockScripts]; tasks that share a memory client in [MemTasks].  The clients of
    the example are those of [P_Ledger]. *)
From Coq Require Import String.
From Verif Require Import Locks LockSpec LockScripts LockScriptSpec.
From Verif Require Import Bytes BytesFacts Utf8 Float64 Value CommandId Request RequestSpec Response RespContext WireSpec
  EngineSpec Metrics Prog Commands HistorySpec EngineProps ConcSpec Scripts LinSpec KeyLinSpec MomentSpec
  Client ClientSpec ClientProps MemTasks MemTaskSpec SeenSpec WroteSpec WroteFacts LedgerSpec LedgerFacts SpareSpec SpareFacts P_Ledger.
From stdpp Require Import gmap list.
From Coq Require Import NArith ZArith Lia.

(** C128: if the key was there whenever an increment, decrement or append could have looked, what the call puts there
    is what it would have made, alone, of the value that was there at that moment. *)
Theorem C128_adds :
  forall sh scripts s0 sched b c k n n' o o',
  room_for_all scripts s0 -> call_at scripts b = Some c -> adds c ->
  replaced sh scripts s0 sched b k n n' o o' ->
  (forall i, i <= n -> ~ noticed sh scripts s0 sched b k i None) ->
  o' = o \/
  exists v, o = Some v /\ o' = st_keys (dispatch (c_env c) (just k (Some v)) (c_req c) (c_res c)).1 !! k.
Proof. exact c128_adds. Qed.
Print Assumptions C128_adds.

(** C128: a rename changes nothing, at either key, unless it has found its destination free while it ran. *)
Theorem C128_renames :
  forall sh scripts s0 sched b c d k n n' o o',
  room_for_all scripts s0 -> call_at scripts b = Some c ->
  r_command (c_req c) = CRename -> arg (c_req c) 1 = Some d ->
  replaced sh scripts s0 sched b k n n' o o' -> o' <> o ->
  exists i, i <= n /\ noticed sh scripts s0 sched b d i None.
Proof. exact c128_renames. Qed.
Print Assumptions C128_renames.

(** C128: a call changes no key but those it is about, and a call that only looks changes none. *)
Theorem C128_own_keys :
  forall sh scripts s0 sched b c k n n' o o',
  room_for_all scripts s0 -> call_at scripts b = Some c -> replaced sh scripts s0 sched b k n n' o o' ->
  o' <> o -> may_touch c k.
Proof. exact c128_own_keys. Qed.
Print Assumptions C128_own_keys.

(** C128: with tasks that share a memory client, additions. *)
Theorem C128_tasks_adds :
  forall sh tasks s0 sched a e c k n n' o o',
  sendable tasks -> tasks_fit tasks s0 -> task_call tasks a = Some (e, c) -> refused c = None -> task_adds c ->
  task_replaced sh tasks s0 sched a k n n' o o' ->
  (forall i, i <= n -> ~ task_noticed sh tasks s0 sched a k i None) ->
  o' = o \/ exists v, o = Some v /\ o' = st_keys (mem_call e (just k (Some v)) c).1 !! k.
Proof. exact c128_tasks_adds. Qed.
Print Assumptions C128_tasks_adds.

(** C128: with tasks that share a memory client, renames. *)
Theorem C128_tasks_renames :
  forall sh tasks s0 sched a e k0 d k n n' o o',
  sendable tasks -> tasks_fit tasks s0 -> task_call tasks a = Some (e, KRename k0 d) -> refused (KRename k0 d) = None ->
  task_replaced sh tasks s0 sched a k n n' o o' -> o' <> o ->
  exists i, i <= n /\ task_noticed sh tasks s0 sched a d i None.
Proof. exact c128_tasks_renames. Qed.
Print Assumptions C128_tasks_renames.

(** C128: with tasks that share a memory client, the keys that a call may change. *)
Theorem C128_tasks_own_keys :
  forall sh tasks s0 sched a e c k n n' o o',
  sendable tasks -> tasks_fit tasks s0 -> task_call tasks a = Some (e, c) -> refused c = None ->
  task_replaced sh tasks s0 sched a k n n' o o' ->
  o' <> o -> task_may_touch c k.
Proof. exact c128_tasks_own_keys. Qed.
Print Assumptions C128_tasks_own_keys.

(** The second client adds 10 to the integer 5 between the second and the sixth step, with the first client's
    increment already begun, and the key is there all the time.  A rename finds its destination free and takes
    the value away. *)
Example C128_nonvacuous :
  sendable some_tasks /\ tasks_fit some_tasks a_store /\ room_for_all some_scripts a_store /\
  call_at some_scripts (1, 0) <> None /\
  task_call some_tasks (1, 0) = Some (env_std true, KIncrementInt (lit "n") (Some 10%Z)) /\
  replaced one_shard some_scripts a_store some_schedule (1, 0) (lit "n") 2 6 (Some (VInteger 5)) (Some (VInteger 15)) /\
  (forall i, i <= 2 -> ~ noticed one_shard some_scripts a_store some_schedule (1, 0) (lit "n") i None) /\
  task_call some_tasks (0, 1) = Some (env_std true, KRename (lit "n") (lit "m")) /\
  replaced one_shard some_scripts a_store some_schedule (0, 1) (lit "n") 32 35 (Some (VInteger 17)) None.
Proof.
  split; [|split; [|split; [|split; [|split; [|split; [|split; [|split]]]]]]].
  - intros e c [[i j] H]. unfold task_call in H. cbn [fst snd] in H.
    destruct i as [|[|[|[|i]]]]; cbn in H; try discriminate H; destruct j as [|[|j]]; cbn in H; try discriminate H;
      injection H as <- <-; (split; [apply env_std_ok|vm_compute; discriminate]).
  - intros m. by destruct m.
  - intros m. by destruct m.
  - vm_compute. discriminate.
  - vm_compute. reflexivity.
  - split; [lia|split; [|split]].
    + apply noticed_by_step; [by apply Nat.leb_le|vm_compute; reflexivity].
    + apply noticed_by_step; [by apply Nat.leb_le|vm_compute; reflexivity].
    + intros m z H1 H2. assert (Hm : m = 3 \/ m = 4 \/ m = 5) by lia.
      destruct Hm as [->|[->| ->]]; apply writing_by_step; vm_compute; reflexivity.
  - intros i Hi (_ & y & Hy & _ & _ & Ho).
    assert (Hq : forallb (fun m => at_step m (fun y => bool_decide (st_keys y.2 !! lit "n" = Some (VInteger 5)))) (seq 0 3) = true)
      by (vm_compute; reflexivity).
    rewrite forallb_forall in Hq. specialize (Hq i). rewrite in_seq in Hq. specialize (Hq ltac:(lia)).
    unfold at_step in Hq. rewrite Hy in Hq. clear Hy. apply bool_decide_eq_true in Hq. rewrite Ho in Hq. discriminate Hq.
  - vm_compute. reflexivity.
  - split; [lia|split; [|split]].
    + apply noticed_by_step; [by apply Nat.leb_le|vm_compute; reflexivity].
    + apply noticed_by_step; [by apply Nat.leb_le|vm_compute; reflexivity].
    + intros m z H1 H2. assert (Hm : m = 33 \/ m = 34) by lia.
      destruct Hm as [->| ->]; apply writing_by_step; vm_compute; reflexivity.
Qed.
