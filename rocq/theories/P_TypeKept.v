(** A key keeps its type until it is set, deleted or renamed: C127.
    The vocabulary is in [TypeKeptSpec], [LedgerSpec], [WroteSpec] and [SeenSpec]; clients that issue one call after
    another, with the map's locks, in [LockScripts]; tasks that share a memory client in [MemTasks]. *)
From Coq Require Import String.
From Verif Require Import Locks LockSpec LockScripts LockScriptSpec.
From Verif Require Import Bytes BytesFacts Utf8 Float64 Value CommandId Request RequestSpec Response RespContext WireSpec
  EngineSpec Metrics Prog Commands HistorySpec EngineProps ConcSpec Scripts LinSpec KeyLinSpec MomentSpec
  Client ClientSpec ClientProps MemTasks MemTaskSpec SeenSpec WroteSpec WroteFacts LedgerSpec LedgerFacts TypeKeptSpec TypeKeptFacts.
From stdpp Require Import gmap list.
From Coq Require Import NArith ZArith Lia.

(** One task adds to a key that is not there; the other sets it. *)
Definition a_store : store := store_of [(lit "n", VInteger 5)].
Definition one_shard : shards := Shards (fun _ => 0%N) (fun _ => 0%N).
Definition two_tasks : list task :=
  [[(env_std true, KIncrementInt (lit "k") (Some 2%Z))]; [(env_std true, KSet (lit "k") (VList [lit "x"]))]].
(** The first finds no value; the second sets the key and returns; the first goes on. *)
Definition late : list (nat * list value) :=
  map (fun i => (i, [])) (replicate 4 0 ++ replicate 18 1 ++ replicate 11 0)%nat.

Section by_step.
  Context (scripts : list (list call)) (sched : list (nat * list value)).
  Definition at_step (n : nat) (P : lsystem -> bool) : bool :=
    match lsys_run one_shard (take n sched) (lbegin scripts a_store) with Some y => P y | None => false end.
  Definition all_clear (k : bytes) (x : lsystem) : bool :=
    forallb (fun cl => negb (bool_decide (holding one_shard (lc_thread cl) = Some (KeyLock (key_shard one_shard k), true)))) x.1.
  Definition in_call (b : nat * nat) (x : lsystem) : bool :=
    match x.1 !! b.1 with
    | Some cl => Nat.eqb (length (lc_done cl)) b.2 && match lc_now cl with Some _ => true | None => false end
    | None => false
    end.

  Lemma in_call_running x b : running x b -> in_call b x = true.
  Proof.
    intros (cl & Hcl & Hd & Hn). unfold in_call. rewrite Hcl, Hd, Nat.eqb_refl. by destruct (lc_now cl).
  Qed.

  Lemma held_by_step k n o : n <= length sched ->
    at_step n (fun y => all_clear k y && bool_decide (st_keys y.2 !! k = o)) = true ->
    held one_shard scripts a_store sched k n o.
  Proof.
    intros Hn H. split; [done|]. unfold at_step in H. destruct (lsys_run _ _ _) as [y|]; [|done]. exists y.
    apply andb_prop in H as [H2 H3]. split_and!; [done| |by apply bool_decide_eq_true in H3].
    intros cl Hcl Hh. unfold all_clear in H2. rewrite forallb_forall in H2.
    specialize (H2 cl (proj1 (elem_of_list_In _ _) Hcl)). by rewrite Hh, bool_decide_true in H2.
  Qed.
End by_step.

(** The claim is false of the code: a key holds a list, every call that sets, deletes or renames it has returned,
    and later it holds an integer.  The increment had found no value and puts its own in the place of the list
    (engine/src/state/mod.rs:180-191). *)
Theorem C127_refuted :
  exists sh tasks s0 sched k n n' v v',
    sendable tasks /\ tasks_fit tasks s0 /\ n <= n' /\
    task_held sh tasks s0 sched k n (Some v) /\ task_held sh tasks s0 sched k n' (Some v') /\
    (forall a e c y, task_call tasks a = Some (e, c) -> task_reshapes c k ->
       at_work sh tasks s0 (take n sched) = Some y -> exists r, got tasks y a r) /\
    kind v' <> kind v.
Proof.
  exists one_shard, two_tasks, a_store, late, (lit "k"), 22, 33, (VList [lit "x"]), (VInteger 2). split_and!.
  - intros e c [[i j] H]. unfold task_call in H. cbn [fst snd] in H.
    destruct i as [|[|i]]; [destruct j as [|j]; [|discriminate H]|destruct j as [|j]; [|discriminate H]|discriminate H]; injection H as <- <-;
      (split; [apply env_std_ok|vm_compute; discriminate]).
  - intros m. by destruct m.
  - lia.
  - apply held_by_step; [by apply Nat.leb_le|vm_compute; reflexivity].
  - apply held_by_step; [by apply Nat.leb_le|vm_compute; reflexivity].
  - intros [i j] e c y H Hc. unfold task_call in H. cbn [fst snd] in H.
    destruct i as [|[|i]]; [destruct j as [|j]; [|discriminate H]|destruct j as [|j]; [|discriminate H]|discriminate H]; injection H as <- <-.
    + destruct Hc as [(w & [[=]|[=]])|[[=]|[(d & [=])|(d & [=])]]].
    + intros Hy. clear Hc. assert (Hq : at_step (map dispatches two_tasks) late 22 (fun y => match y.1 !! 1 with
        | Some cl => match results [(env_std true, KSet (lit "k") (VList [lit "x"]))] (lc_done cl) with [_] => true | _ => false end
        | None => false end) = true) by (vm_compute; reflexivity).
      unfold at_step in Hq. unfold at_work in Hy. rewrite Hy in Hq. clear Hy.
      destruct (y.1 !! 1) as [cl|] eqn:Ecl; [|done].
      destruct (results _ (lc_done cl)) as [|r [|? ?]] eqn:Er; [done| |done].
      exists r. eexists _, cl. split_and!; [reflexivity|done|]. cbn [fst snd]. by rewrite Er.
  - done.
Qed.
Print Assumptions C127_refuted.

(** C127: if no client's call sets the key, deletes it, or renames it or something to it, then a key that is there
    at the start is there at every moment at which nobody writes to its shard, with the type it had. *)
Theorem C127_partial :
  forall sh scripts s0 sched k n v o,
  room_for_all scripts s0 -> st_keys s0 !! k = Some v ->
  (forall b c, call_at scripts b = Some c -> ~ reshapes c k) ->
  held sh scripts s0 sched k n o ->
  exists v', o = Some v' /\ kind v' = kind v.
Proof. exact c127_kept. Qed.
Print Assumptions C127_partial.

(** C127: from any moment on at which the key is there, and no call is running that did not find it there earlier,
    it stays there and keeps its type as long as no call that sets, deletes or renames it changes it. *)
Theorem C127_settled_partial :
  forall sh scripts s0 sched k n n' v o,
  room_for_all scripts s0 -> n <= n' ->
  held sh scripts s0 sched k n (Some v) -> held sh scripts s0 sched k n' o ->
  (forall b c m m' p p', call_at scripts b = Some c -> n <= m -> m' <= n' ->
     replaced sh scripts s0 sched b k m m' p p' -> ~ reshapes c k) ->
  (forall b i y, i <= n -> noticed sh scripts s0 sched b k i None ->
     lsys_run sh (take n sched) (lbegin scripts s0) = Some y -> ~ running y b) ->
  exists v', o = Some v' /\ kind v' = kind v.
Proof. exact c127_settled. Qed.
Print Assumptions C127_settled_partial.

(** C127: and so with tasks that share a memory client. *)
Theorem C127_tasks_partial :
  forall sh tasks s0 sched k n v o,
  sendable tasks -> tasks_fit tasks s0 -> st_keys s0 !! k = Some v ->
  (forall e c, made_by_one tasks e c -> ~ task_reshapes c k) ->
  task_held sh tasks s0 sched k n o ->
  exists v', o = Some v' /\ kind v' = kind v.
Proof. exact c127_tasks_kept. Qed.
Print Assumptions C127_tasks_partial.

(** C127: and so from any moment on. *)
Theorem C127_tasks_settled_partial :
  forall sh tasks s0 sched k n n' v o,
  sendable tasks -> tasks_fit tasks s0 -> n <= n' ->
  task_held sh tasks s0 sched k n (Some v) -> task_held sh tasks s0 sched k n' o ->
  (forall a e c m m' p p', task_call tasks a = Some (e, c) -> n <= m -> m' <= n' ->
     task_replaced sh tasks s0 sched a k m m' p p' -> ~ task_reshapes c k) ->
  (forall a i y, i <= n -> task_noticed sh tasks s0 sched a k i None ->
     at_work sh tasks s0 (take n sched) = Some y -> ~ task_running tasks y a) ->
  exists v', o = Some v' /\ kind v' = kind v.
Proof. exact c127_tasks_settled. Qed.
Print Assumptions C127_tasks_settled_partial.

(** A task sets a key that was not there, another adds to it afterwards; both add to one that was there. *)
Definition more_tasks : list task :=
  [[(env_std true, KSet (lit "k") (VInteger 1)); (env_std true, KIncrementInt (lit "n") (Some 2%Z))];
   [(env_std true, KIncrementInt (lit "k") (Some 2%Z)); (env_std true, KAppend (lit "n") (VList [lit "y"]))]].
Definition more_scripts : list (list call) := map dispatches more_tasks.
Definition after : list (nat * list value) :=
  map (fun i => (i, [])) (replicate 18 0 ++ replicate 8 1)%nat.

Example C127_nonvacuous :
  sendable more_tasks /\ tasks_fit more_tasks a_store /\ room_for_all more_scripts a_store /\
  (forall e c, made_by_one more_tasks e c -> ~ task_reshapes c (lit "n")) /\
  st_keys a_store !! lit "n" = Some (VInteger 5) /\
  held one_shard more_scripts a_store after (lit "n") 0 (Some (VInteger 5)) /\
  held one_shard more_scripts a_store after (lit "k") 0 None /\
  held one_shard more_scripts a_store after (lit "k") 18 (Some (VInteger 1)) /\
  held one_shard more_scripts a_store after (lit "k") 26 (Some (VInteger 3)) /\
  (forall b c m m' p p', call_at more_scripts b = Some c -> 18 <= m -> m' <= 26 ->
     replaced one_shard more_scripts a_store after b (lit "k") m m' p p' -> ~ reshapes c (lit "k")) /\
  (forall b i y, i <= 18 -> noticed one_shard more_scripts a_store after b (lit "k") i None ->
     lsys_run one_shard (take 18 after) (lbegin more_scripts a_store) = Some y -> ~ running y b).
Proof.
  assert (Hcs : forall e c, made_by_one more_tasks e c -> e = env_std true /\
    c ∈ [KSet (lit "k") (VInteger 1); KIncrementInt (lit "n") (Some 2%Z); KIncrementInt (lit "k") (Some 2%Z);
         KAppend (lit "n") (VList [lit "y"])]).
  { intros e c [[i j] H]. unfold task_call in H. cbn [fst snd] in H. rewrite !elem_of_cons.
    destruct i as [|[|i]]; cbn in H; try done; destruct j as [|[|j]]; cbn in H; try done; injection H as <- <-; tauto. }
  split_and!.
  - intros e c H. destruct (Hcs e c H) as [-> Hc]. rewrite !elem_of_cons in Hc. split; [apply env_std_ok|].
    destruct Hc as [->|[->|[->|[->|[]%elem_of_nil]]]]; vm_compute; discriminate.
  - intros m. by destruct m.
  - intros m. by destruct m.
  - intros e c H. destruct (Hcs e c H) as [-> Hc]. rewrite !elem_of_cons in Hc. unfold task_reshapes, sets_to.
    destruct Hc as [->|[->|[->|[->|[]%elem_of_nil]]]]; intros [(w & [[=]|[=]])|[[=]|[(d & [=])|(d & [=])]]].
  - done.
  - apply held_by_step; [by apply Nat.leb_le|vm_compute; reflexivity].
  - apply held_by_step; [by apply Nat.leb_le|vm_compute; reflexivity].
  - apply held_by_step; [by apply Nat.leb_le|vm_compute; reflexivity].
  - apply held_by_step; [by apply Nat.leb_le|vm_compute; reflexivity].
  - intros [i j] c m m' p p' H H1 H2 Hrp Hsh.
    unfold call_at in H. cbn [fst snd] in H.
    destruct i as [|[|i]]; vm_compute in H; try done; destruct j as [|[|j]]; try done; injection H as <-;
      unfold reshapes in Hsh; vm_compute in Hsh; try done.
    destruct Hrp as (Hlt & (_ & y & Hy & Hr & _) & _).
    assert (Hq : forallb (fun m => at_step more_scripts after m (fun y => negb (in_call (0, 0) y))) (seq 18 9) = true)
      by (vm_compute; reflexivity).
    rewrite forallb_forall in Hq. specialize (Hq m). rewrite in_seq in Hq. specialize (Hq ltac:(lia)).
    unfold at_step in Hq. rewrite Hy in Hq. clear Hy. by rewrite (in_call_running _ _ Hr) in Hq.
  - intros b i y Hi _ Hy (cl & Hcl & _ & Hn).
    assert (Hq : at_step more_scripts after 18 (fun y => forallb (fun cl => match lc_now cl with Some _ => false | None => true end) y.1) = true)
      by (vm_compute; reflexivity).
    unfold at_step in Hq. rewrite Hy in Hq. clear Hy. rewrite forallb_forall in Hq.
    specialize (Hq cl (proj1 (elem_of_list_In _ _) (elem_of_list_lookup_2 _ _ _ Hcl))). by destruct (lc_now cl).
Qed.
