(** What a call that reports an error has changed: C130.
    The vocabulary is in [MildSpec], [SpareSpec], [LedgerSpec], [WroteSpec] and [SeenSpec]; clients that share the
    data, with the map's locks, in [LockScripts], and tasks that share a memory client in [MemTasks].
    The example is the one of [P_Wrote]. *)
From Coq Require Import String.
From Verif Require Import Locks LockSpec LockScripts LockScriptSpec.
From Verif Require Import Bytes BytesFacts Utf8 Float64 Value CommandId Request RequestSpec Response RespContext WireSpec
  EngineSpec Metrics Prog Commands HistorySpec EngineProps ConcSpec Scripts LinSpec KeyLinSpec MomentSpec
  Client ClientSpec ClientProps MemTasks MemTaskSpec SeenSpec WroteSpec WroteFacts LedgerSpec SpareSpec LastingSpec MildSpec MildFacts P_Wrote.
From stdpp Require Import gmap list.
From Coq Require Import NArith ZArith Lia.

(** C130 is not so of sets: a set that reports an error has taken the value away.  It finds a value of another type
    that another client has set in the meantime. *)
Theorem C130_refuted :
  exists sh scripts s0 sched x b c k n n' v err out,
    room_for_all scripts s0 /\ lsys_run sh sched (lbegin scripts s0) = Some x /\
    call_at scripts b = Some c /\ arg (c_req c) 0 = Some k /\ ordinary k /\
    lreturned x b (CErr err out) /\ replaced sh scripts s0 sched b k n n' (Some v) None.
Proof.
  assert (Hdone : match lsys_run one_shard some_schedule (lbegin some_scripts a_store) with
    | Some x => match x.1 !! 2 with Some cl => lc_done cl !! 0 = Some (CErr EKeyTypeDifferent []) | None => False end
    | None => False end) by (vm_compute; reflexivity).
  destruct (lsys_run one_shard some_schedule (lbegin some_scripts a_store)) as [x|] eqn:Hx; [|destruct Hdone].
  eexists one_shard, some_scripts, a_store, some_schedule, x, (2, 0), _, (lit "k"), 50, 53, (VList [lit "x"]), EKeyTypeDifferent, [].
  split; [intros m; by destruct m|]. split; [exact Hx|]. clear Hx.
  split; [vm_compute; reflexivity|]. split; [vm_compute; reflexivity|]. split; [split; [done|by intros [r [=]]]|].
  split.
  - destruct (x.1 !! 2) as [cl|] eqn:Hcl; [|destruct Hdone]. exists cl. split; [exact Hcl|exact Hdone].
  - split; [lia|]. split; [|split].
    + apply noticed_by_step; [by apply Nat.leb_le|vm_compute; reflexivity].
    + apply noticed_by_step; [by apply Nat.leb_le|vm_compute; reflexivity].
    + intros m z H1 H2. assert (Hm : m = 51 \/ m = 52) by lia.
      destruct Hm as [->| ->]; apply writing_by_step; vm_compute; reflexivity.
Qed.
Print Assumptions C130_refuted.

(** Nor is it so of additions to a key that is missing, even with one client: an increment of a float puts the integer
    zero there, and then finds that it is not a float. *)
Definition lone_scripts : list (list call) := map dispatches [[(env_std true, KIncrement (lit "z") (Some KTFloat))]].
Definition lone_schedule : list (nat * list value) := replicate 15 (0, []).
Definition lone_step (n : nat) (P : lsystem -> bool) : bool :=
  match lsys_run one_shard (take n lone_schedule) (lbegin lone_scripts a_store) with Some y => P y | None => false end.

Lemma lone_noticed n o : n <= length lone_schedule ->
  lone_step n (fun y => in_call y (0, 0) && all_clear y (lit "z") && bool_decide (st_keys y.2 !! lit "z" = o)) = true ->
  noticed one_shard lone_scripts a_store lone_schedule (0, 0) (lit "z") n o.
Proof.
  intros Hn H. split; [done|]. unfold lone_step in H. destruct (lsys_run _ _ _) as [y|]; [|done]. exists y.
  apply andb_prop in H as [[H1 H2]%andb_prop H3]. split_and!; [done|by apply in_call_running| |by apply bool_decide_eq_true in H3].
  intros cl Hcl Hh. unfold all_clear in H2. rewrite forallb_forall in H2.
  specialize (H2 cl (proj1 (elem_of_list_In _ _) Hcl)). by rewrite Hh, bool_decide_true in H2.
Qed.

Theorem C130_blank_refuted :
  exists sh scripts s0 sched x b c k n n' t err out,
    scripts = [[c]] /\ room_for_all scripts s0 /\ lsys_run sh sched (lbegin scripts s0) = Some x /\
    call_at scripts b = Some c /\ r_command (c_req c) = CIncrement /\ arg (c_req c) 0 = Some k /\ ordinary k /\
    lreturned x b (CErr err out) /\ replaced sh scripts s0 sched b k n n' None (Some (blank t)).
Proof.
  assert (Hdone : match lsys_run one_shard lone_schedule (lbegin lone_scripts a_store) with
    | Some x => match x.1 !! 0 with Some cl => lc_done cl !! 0 = Some (CErr EKeyTypeDifferent []) | None => False end
    | None => False end) by (vm_compute; reflexivity).
  destruct (lsys_run one_shard lone_schedule (lbegin lone_scripts a_store)) as [x|] eqn:Hx; [|destruct Hdone].
  eexists one_shard, lone_scripts, a_store, lone_schedule, x, (0, 0), _, (lit "z"), 4, 7, KTInteger, EKeyTypeDifferent, [].
  split; [vm_compute; reflexivity|]. split; [intros m; by destruct m|]. split; [exact Hx|]. clear Hx.
  split; [vm_compute; reflexivity|]. split; [reflexivity|]. split; [reflexivity|].
  split; [split; [done|by intros [r [=]]]|]. split.
  - destruct (x.1 !! 0) as [cl|] eqn:Hcl; [|destruct Hdone]. exists cl. split; [exact Hcl|exact Hdone].
  - split; [lia|]. split; [|split].
    + apply lone_noticed; [by apply Nat.leb_le|vm_compute; reflexivity].
    + apply lone_noticed; [by apply Nat.leb_le|vm_compute; reflexivity].
    + intros m z H1 H2 Hz.
      assert (H : lone_step m (fun y => in_call y (0, 0) && has_lock y (0, 0) (lit "z")) = true).
      { assert (Hm : m = 5 \/ m = 6) by lia. clear Hz. destruct Hm as [->| ->]; vm_compute; reflexivity. }
      unfold lone_step in H. rewrite Hz in H. clear Hz. apply andb_prop in H as [H3%in_call_running H4].
      destruct H3 as (cl & Hcl & Hd & _). unfold has_lock in H4. rewrite Hcl in H4. exists cl. split_and!; [done|done|].
      by apply bool_decide_eq_true in H4.
Qed.
Print Assumptions C130_blank_refuted.

(** C130: each change of a key by a call that reports an error is none, or puts a blank value where the call found
    nothing before, or is the removal by a set.  Missing from C130: that it is none. *)
Theorem C130_error_partial :
  forall sh scripts s0 sched x b c k n n' o o' err out,
  room_for_all scripts s0 -> lsys_run sh sched (lbegin scripts s0) = Some x -> call_at scripts b = Some c ->
  lreturned x b (CErr err out) -> replaced sh scripts s0 sched b k n n' o o' ->
  mild sh scripts s0 sched b c k n o o'.
Proof. exact c130_errors. Qed.
Print Assumptions C130_error_partial.

(** C130: a call that neither sets nor adds, such as a delete or a rename, and reports an error has changed nothing. *)
Theorem C130_nothing :
  forall sh scripts s0 sched x b c k n n' o o' err out,
  room_for_all scripts s0 -> lsys_run sh sched (lbegin scripts s0) = Some x -> call_at scripts b = Some c ->
  lreturned x b (CErr err out) ->
  match r_command (c_req c) with
  | CSet | CAppend | CIncrement | CDecrement | CIncrementBy | CDecrementBy => False
  | _ => True
  end ->
  replaced sh scripts s0 sched b k n n' o o' -> o' = o.
Proof. exact c130_nothing. Qed.
Print Assumptions C130_nothing.

(** C130: no more has an append, increment or decrement that reports an error, if it never found the key missing.
    Missing from C130: the same when the key was missing. *)
Theorem C130_adds_partial :
  forall sh scripts s0 sched x b c k n n' o o' err out,
  room_for_all scripts s0 -> lsys_run sh sched (lbegin scripts s0) = Some x -> call_at scripts b = Some c ->
  lreturned x b (CErr err out) -> r_command (c_req c) <> CSet ->
  replaced sh scripts s0 sched b k n n' o o' ->
  (forall i, i <= n -> ~ noticed sh scripts s0 sched b k i None) -> o' = o.
Proof. exact c130_adds. Qed.
Print Assumptions C130_adds_partial.

(** C130: and so with tasks that share a memory client.  Missing from C130: that the change is none. *)
Theorem C130_tasks_partial :
  forall sh tasks s0 sched x a e c k n n' o o' err,
  sendable tasks -> tasks_fit tasks s0 -> at_work sh tasks s0 sched = Some x ->
  task_call tasks a = Some (e, c) -> got tasks x a (RErr (CERunningCommand err)) ->
  task_replaced sh tasks s0 sched a k n n' o o' ->
  task_mild sh tasks s0 sched a c k n o o'.
Proof. exact c130_tasks. Qed.
Print Assumptions C130_tasks_partial.

(** C130: a rename or delete of such a task that reports an error has changed nothing. *)
Theorem C130_tasks_nothing :
  forall sh tasks s0 sched x a e c k n n' o o' err,
  sendable tasks -> tasks_fit tasks s0 -> at_work sh tasks s0 sched = Some x ->
  task_call tasks a = Some (e, c) -> (exists l, c = KDelete l) \/ (exists l d, c = KRename l d) ->
  got tasks x a (RErr (CERunningCommand err)) ->
  task_replaced sh tasks s0 sched a k n n' o o' -> o' = o.
Proof. exact c130_tasks_nothing. Qed.
Print Assumptions C130_tasks_nothing.

(** C130: a key that is there holds the same during and after any number of calls on it that fail, in whatever tasks they run and
    however they mix, if none of them is a set. *)
Theorem C130_unharmed :
  forall sh tasks s0 sched x k n n' v,
  sendable tasks -> tasks_fit tasks s0 -> at_work sh tasks s0 sched = Some x ->
  n' <= length sched -> only_failures sh tasks s0 sched x k n n' ->
  task_held sh tasks s0 sched k n (Some v) -> lasts sh tasks s0 sched k n n' (Some v).
Proof. exact c130_unharmed. Qed.
Print Assumptions C130_unharmed.

(** C130: so a get that begins and returns meanwhile returns that value. *)
Theorem C130_read :
  forall sh tasks s0 sched x k n n' y z b e v r,
  sendable tasks -> tasks_fit tasks s0 -> at_work sh tasks s0 sched = Some x -> ordinary k -> sound v ->
  n <= n' -> n' <= length sched -> only_failures sh tasks s0 sched x k n n' ->
  task_held sh tasks s0 sched k n (Some v) ->
  at_work sh tasks s0 (take n sched) = Some y -> at_work sh tasks s0 (take n' sched) = Some z ->
  task_call tasks b = Some (e, KGet k) -> ahead tasks y b -> got tasks z b r ->
  r = ROk (RpValue v).
Proof. exact c130_read. Qed.
Print Assumptions C130_read.

(** One task sets a key; then, mixed with each other, one fails to increment it and one fails to rename it; a
    fourth one reads it meanwhile. *)
Definition the_store : store := store_of [(lit "k", VInteger 1); (lit "n", VInteger 5)].
Definition the_tasks : list task :=
  [[(env_std true, KSet (lit "k") (VBoolean true))];
   [(env_std true, KIncrementInt (lit "k") (Some 2%Z))];
   [(env_std true, KRename (lit "k") (lit "n")); (env_std true, KDelete (lit "n"))];
   [(env_std true, KGet (lit "k"))]].
Definition the_schedule : list (nat * list value) :=
  map (fun i => (i, [])) (replicate 18 0 ++ replicate 1 1 ++ replicate 4 2 ++ replicate 5 1 ++ replicate 3 3 ++ replicate 3 1 ++ replicate 5 3 ++ replicate 15 2)%nat.

Lemma the_got n a r :
  match at_work one_shard the_tasks the_store (take n the_schedule) with
  | Some y => match the_tasks !! a.1, y.1 !! a.1 with
    | Some h, Some cl => results h (lc_done cl) !! a.2 = Some r | _, _ => False end
  | None => False
  end ->
  forall y, at_work one_shard the_tasks the_store (take n the_schedule) = Some y -> got the_tasks y a r.
Proof.
  intros H y Hy. rewrite Hy in H. clear Hy.
  destruct (the_tasks !! a.1) as [h|] eqn:Hh; [|destruct H]. destruct (y.1 !! a.1) as [cl|] eqn:Hcl; [|destruct H].
  exists h, cl. split; [exact Hh|]. split; [exact Hcl|]. exact H.
Qed.

Lemma the_ahead n a :
  match at_work one_shard the_tasks the_store (take n the_schedule) with
  | Some y => match the_tasks !! a.1, y.1 !! a.1 with
    | Some h, Some cl => Nat.leb (lbegun cl) (length (dispatches (take a.2 h))) = true | _, _ => False end
  | None => False
  end ->
  forall y, at_work one_shard the_tasks the_store (take n the_schedule) = Some y -> ahead the_tasks y a.
Proof.
  intros H y Hy. rewrite Hy in H. clear Hy.
  destruct (the_tasks !! a.1) as [h|] eqn:Hh; [|destruct H]. destruct (y.1 !! a.1) as [cl|] eqn:Hcl; [|destruct H].
  exists h, cl. split; [exact Hh|]. split; [exact Hcl|]. by apply Nat.leb_le.
Qed.

Lemma the_held n o : n <= 54 ->
  match at_work one_shard the_tasks the_store (take n the_schedule) with
  | Some y => forallb (fun cl => bool_decide (holding one_shard (lc_thread cl) <> Some (KeyLock (key_shard one_shard (lit "k")), true))) y.1 = true /\
    st_keys y.2 !! lit "k" = o
  | None => False
  end -> task_held one_shard the_tasks the_store the_schedule (lit "k") n o.
Proof.
  intros Hn H. split; [exact Hn|]. destruct (at_work _ _ _ _) as [y|] eqn:Hy; [|destruct H]. exists y. split; [reflexivity|]. clear Hy.
  destruct H as [H1 H2]. split; [|exact H2]. intros cl Hcl. rewrite forallb_forall in H1.
  specialize (H1 cl (proj1 (elem_of_list_In _ _) Hcl)). by apply bool_decide_eq_true in H1.
Qed.

Lemma the_failures x : at_work one_shard the_tasks the_store the_schedule = Some x ->
  only_failures one_shard the_tasks the_store the_schedule x (lit "k") 18 54.
Proof.
  intros Hx. change the_schedule with (take 54 the_schedule) in Hx. intros y z b e c Hy _ Hc Ht _. destruct b as [i j]. unfold task_call in Hc. cbn [fst snd] in Hc.
  destruct i as [|[|[|[|i]]]]; cbn in Hc; try discriminate Hc; destruct j as [|[|j]]; cbn in Hc; try discriminate Hc;
    injection Hc as <- <-.
  - left. eexists. eapply (the_got 18); [vm_compute; reflexivity|exact Hy].
  - right. split; [|split].
    + eapply (the_ahead 18); [vm_compute; reflexivity|exact Hy].
    + intros w [[=]|[=]].
    + eexists. eapply (the_got 54); [vm_compute; reflexivity|exact Hx].
  - right. split; [|split].
    + eapply (the_ahead 18); [vm_compute; reflexivity|exact Hy].
    + intros w [[=]|[=]].
    + eexists. eapply (the_got 54); [vm_compute; reflexivity|exact Hx].
  - exfalso. clear Hx Hy. unfold task_may_touch, sets_to, opens_with in Ht.
    destruct Ht as [[w [[=]|[=]]]|[[t Ht]|[[=]|[[d [=]]|[k0 [=]]]]]]; exact Ht.
  - exfalso. clear Hx Hy. unfold task_may_touch, sets_to, opens_with in Ht.
    destruct Ht as [[w [[=]|[=]]]|[[t Ht]|[[=]|[[d [=]]|[k0 [=]]]]]]; exact Ht.
Qed.

Example C130_nonvacuous :
  sendable the_tasks /\ tasks_fit the_tasks the_store /\
  (exists x, at_work one_shard the_tasks the_store the_schedule = Some x /\
     got the_tasks x (1, 0) (RErr (CERunningCommand EKeyTypeDifferent)) /\
     got the_tasks x (2, 0) (RErr (CERunningCommand EPreconditionFailed)) /\
     got the_tasks x (3, 0) (ROk (RpValue (VBoolean true))) /\
     only_failures one_shard the_tasks the_store the_schedule x (lit "k") 18 54) /\
  (exists y, at_work one_shard the_tasks the_store (take 18 the_schedule) = Some y /\ ahead the_tasks y (3, 0)) /\
  ordinary (lit "k") /\ sound (VBoolean true) /\
  task_held one_shard the_tasks the_store the_schedule (lit "k") 18 (Some (VBoolean true)) /\
  task_held one_shard the_tasks the_store the_schedule (lit "k") 54 (Some (VBoolean true)).
Proof.
  split; [|split; [|split; [|split; [|split; [|split; [|split]]]]]].
  - intros e c [[i j] H]. unfold task_call in H. cbn [fst snd] in H.
    destruct i as [|[|[|[|i]]]]; cbn in H; try discriminate H; destruct j as [|[|j]]; cbn in H; try discriminate H;
      injection H as <- <-; (split; [apply env_std_ok|vm_compute; discriminate]).
  - intros m. by destruct m.
  - assert (H : match at_work one_shard the_tasks the_store the_schedule with Some _ => true | None => false end = true) by (vm_compute; reflexivity).
    destruct (at_work one_shard the_tasks the_store the_schedule) as [x|] eqn:Hx; [|discriminate H]. clear H.
    exists x. split; [reflexivity|]. split; [|split; [|split]].
    + eapply (the_got 54); [vm_compute; reflexivity|exact Hx].
    + eapply (the_got 54); [vm_compute; reflexivity|exact Hx].
    + eapply (the_got 54); [vm_compute; reflexivity|exact Hx].
    + by apply the_failures.
  - assert (H : match at_work one_shard the_tasks the_store (take 18 the_schedule) with Some _ => true | None => false end = true) by (vm_compute; reflexivity).
    destruct (at_work one_shard the_tasks the_store (take 18 the_schedule)) as [y|] eqn:Hy; [|discriminate H]. clear H.
    exists y. split; [reflexivity|]. eapply (the_ahead 18); [vm_compute; reflexivity|exact Hy].
  - split; [done|]. by intros [r [=]].
  - apply ClientFacts.sound_bool.
  - apply the_held; [by apply Nat.leb_le|]. vm_compute. split; reflexivity.
  - apply the_held; [by apply Nat.leb_le|]. vm_compute. split; reflexivity.
Qed.
