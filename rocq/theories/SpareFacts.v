(** Lemmas behind C128, from the changes that each call can make (C125). *)
From Verif Require Import Locks LockSpec LockScripts LockScriptSpec.
From Verif Require Import Bytes Value CommandId Request RequestSpec Response Metrics Prog Commands HistorySpec
  Scripts LinSpec MomentSpec Client ClientSpec ClientProps MemTasks MemTaskSpec SeenSpec WroteSpec LedgerSpec
  LedgerFacts SpareSpec.
From stdpp Require Import gmap list.

Lemma c128_adds sh scripts s0 sched b c k n n' o o' :
  room_for_all scripts s0 -> call_at scripts b = Some c -> adds c ->
  replaced sh scripts s0 sched b k n n' o o' ->
  (forall i, i <= n -> ~ noticed sh scripts s0 sched b k i None) ->
  o' = o \/
  exists v, o = Some v /\ o' = st_keys (dispatch (c_env c) (just k (Some v)) (c_req c) (c_res c)).1 !! k.
Proof.
  intros Hroom Hc Ha Hre Hno. destruct (c125_each _ _ _ _ _ _ _ _ _ _ _ Hroom Hc Hre) as [|Hch]; [by left|right].
  unfold adds in Ha. unfold may_change in Hch. destruct (r_command (c_req c)); try done;
    (destruct Hch as [_ [[[=] _]|[(t & i & Hi & Hn & _)|H]]]; [by destruct (Hno i Hi)|exact H]).
Qed.

Lemma c128_renames sh scripts s0 sched b c d k n n' o o' :
  room_for_all scripts s0 -> call_at scripts b = Some c ->
  r_command (c_req c) = CRename -> arg (c_req c) 1 = Some d ->
  replaced sh scripts s0 sched b k n n' o o' -> o' <> o ->
  exists i, i <= n /\ noticed sh scripts s0 sched b d i None.
Proof.
  intros Hroom Hc Hr Hd Hre Hne. destruct (c125_each _ _ _ _ _ _ _ _ _ _ _ Hroom Hc Hre) as [|Hch]; [done|].
  unfold may_change in Hch. rewrite Hr in Hch. destruct Hch as (k0 & d' & i & _ & Hd' & Hi & Hn & _).
  rewrite Hd in Hd'. injection Hd' as <-. by exists i.
Qed.

Lemma c128_own_keys sh scripts s0 sched b c k n n' o o' :
  room_for_all scripts s0 -> call_at scripts b = Some c -> replaced sh scripts s0 sched b k n n' o o' ->
  o' <> o -> may_touch c k.
Proof.
  intros Hroom Hc Hre Hne. destruct (c125_each _ _ _ _ _ _ _ _ _ _ _ Hroom Hc Hre) as [|Hch]; [done|].
  unfold may_change in Hch. unfold may_touch. destruct (r_command (c_req c)); try done; try by destruct Hch.
  destruct Hch as (k0 & d & i & H0 & H1 & _ & _ & [[-> _]|[-> _]]); [by left|by right].
Qed.

Lemma c128_tasks_adds sh tasks s0 sched a e c k n n' o o' :
  sendable tasks -> tasks_fit tasks s0 -> task_call tasks a = Some (e, c) -> refused c = None -> task_adds c ->
  task_replaced sh tasks s0 sched a k n n' o o' ->
  (forall i, i <= n -> ~ task_noticed sh tasks s0 sched a k i None) ->
  o' = o \/ exists v, o = Some v /\ o' = st_keys (mem_call e (just k (Some v)) c).1 !! k.
Proof.
  intros Hsend Hfit Hc Hrf Ha Hre Hno.
  destruct (c125_tasks_each _ _ _ _ _ _ _ _ _ _ _ _ Hsend Hfit Hc Hrf Hre) as [|Hch]; [by left|right].
  destruct Hch as [[-> _]|[(d & i & -> & _)|[(k0 & i & m & m' & v & -> & _)|[(w & [->| ->] & _)|[(t & i & _ & Hi & Hn & _)|(t & v & _ & H)]]]]];
    try done; [by destruct (Hno i Hi)|by exists v].
Qed.

Lemma c128_tasks_renames sh tasks s0 sched a e k0 d k n n' o o' :
  sendable tasks -> tasks_fit tasks s0 -> task_call tasks a = Some (e, KRename k0 d) -> refused (KRename k0 d) = None ->
  task_replaced sh tasks s0 sched a k n n' o o' -> o' <> o ->
  exists i, i <= n /\ task_noticed sh tasks s0 sched a d i None.
Proof.
  intros Hsend Hfit Hc Hrf Hre Hne.
  destruct (c125_tasks_each _ _ _ _ _ _ _ _ _ _ _ _ Hsend Hfit Hc Hrf Hre) as [|Hch]; [done|].
  destruct Hch as [[[=] _]|[(d' & i & [= -> <-] & Hi & Hn & _)|[(k' & i & m & m' & v & [= <- ->] & Hi & Hm & Hn & Hr & _)|[(w & [[=]|[=]] & _)|[(t & i & H & _)|(t & v & H & _)]]]]];
    try done; [by exists i|].
  destruct Hr as (Hlt' & _). exists i. split; [lia|done].
Qed.

Lemma c128_tasks_own_keys sh tasks s0 sched a e c k n n' o o' :
  sendable tasks -> tasks_fit tasks s0 -> task_call tasks a = Some (e, c) -> refused c = None ->
  task_replaced sh tasks s0 sched a k n n' o o' ->
  o' <> o -> task_may_touch c k.
Proof.
  intros Hsend Hfit Hc Hrf Hre Hne.
  destruct (c125_tasks_each _ _ _ _ _ _ _ _ _ _ _ _ Hsend Hfit Hc Hrf Hre) as [|Hch]; [done|]. unfold task_may_touch.
  destruct Hch as [[-> _]|[(d & i & -> & _)|[(k0 & i & m & m' & v & -> & _)|[(w & Hw & _)|[(t & i & Ho & _)|(t & v & Ho & _)]]]]]; eauto 8.
Qed.
