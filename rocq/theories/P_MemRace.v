(** Tasks that race for one key through a shared memory client: C116, C117; and C114 with the map's locks.
    The vocabulary is in [MemRaceSpec], [MemTaskSpec], [SetRaceSpec] and [ClientSpec]; the tasks are in
    [MemTasks], and run on the store with its locks, [LockScripts]. *)
From Coq Require Import String.
From Verif Require Import Locks LockSpec LockScripts LockScriptSpec.
From Verif Require Import Bytes BytesFacts Utf8 Float64 Value CommandId
  Request Response RespContext Metrics Prog Commands EngineSpec WireSpec RequestSpec
  HistorySpec EngineProps ConcSpec ConcProps Scripts LinSpec KeyLinSpec Client ClientSpec ClientFacts ClientProps
  MemTasks MemTaskSpec MemTaskFacts SetRaceSpec MemRaceSpec MemRaceFacts.
From stdpp Require Import gmap list.
From Coq Require Import NArith ZArith Lia.

(** All keys in one shard. *)
Definition one_shard : shards := Shards (fun _ => 0%N) (fun _ => 0%N).
Notation dbg := (env_std true) (only parsing).

(** Two tasks set a key to a list, one to a string. *)
Definition set_store : store := store_of [(lit "l", VInteger 5); (lit "n", VInteger 6)].
Definition set_tasks : list task :=
  [[(dbg, KSet (lit "l") (VList [lit "x"])); (dbg, KGet (lit "l"))];
   [(dbg, KSetTyped (lit "l") (VList [lit "y"; lit "z"]))];
   [(dbg, KSet (lit "l") (VString (lit "w"))); (dbg, KIncrement (lit "n") None)]].
Definition set_sched : list (nat * list value) := map (fun i => (i, [VInteger 99]))
  [2; 0; 1; 2; 2; 2; 0; 0; 0; 1; 1; 1; 2; 2; 2; 0; 0; 0; 1; 1; 1; 2; 2;
   2; 0; 0; 0; 1; 1; 1; 2; 2; 2; 2; 2; 0; 2; 0; 2; 0; 2; 0; 2; 0; 1; 2;
   0; 1; 0; 1; 0; 1; 0; 1; 2; 0; 1; 2; 1; 2; 1; 2; 1; 2; 0; 2; 0; 2; 0;
   2; 0; 2; 0; 0; 0]%nat.

(** One task renames a key, one renames it to two other names, the first of which is refused, one renames it to
    a name that is in use and deletes it. *)
Definition take_store : store := store_of [(lit "a", VInteger 5); (lit "n", VInteger 6)].
Definition take_tasks : list task :=
  [[(dbg, KRename (lit "a") (lit "b"))];
   [(dbg, KRename (lit "a") []); (dbg, KRename (lit "a") (lit "c")); (dbg, KGet (lit "c"))];
   [(dbg, KRename (lit "a") (lit "n")); (dbg, KDelete (lit "a"))]].
Definition take_sched : list (nat * list value) := map (fun i => (i, [VInteger 99]))
  [1; 2; 0; 1; 2; 0; 1; 2; 0; 1; 2; 0; 1; 2; 0; 1; 2; 0; 1; 2; 0; 1; 2;
   1; 2; 1; 2; 0; 2; 0; 2; 0; 1; 0; 1; 0; 1; 2; 0; 1; 2; 0; 1; 2; 1; 2;
   1; 2; 1; 2; 1; 2; 1; 1; 1; 1; 1; 1]%nat.

Ltac each_task_call := let i := fresh "i" in let j := fresh "j" in let H := fresh "H" in
  intros ? ? [[i j] H]; unfold task_call in H; cbn [fst snd] in H;
  destruct i as [|[|[|i]]]; cbn in H; try done; try (by destruct i);
  destruct j as [|[|[|[|j]]]]; cbn in H; try done; injection H as <- <-.
Ltac roomy_all := let m := fresh in intros m; unfold set_store, take_store, store_of, count; cbn [st_counters];
  rewrite lookup_empty; vm_compute; reflexivity.
Lemma small_sound (v : value) : value_wf v -> within_limits (RValue v) -> v <> VBytes [] -> v <> VList [] ->
  v <> VSet ∅ -> sound v.
Proof. done. Qed.

(** C114, with the locks of the map: a Set answers the value it was given, or reports an argument that is not of
    its type, or reports that the key holds another type. *)
Theorem C114_locked_outcomes :
  forall sh k scripts s0 lsched x a c kt l r,
  room_for_all scripts s0 -> envs_ok scripts -> ordinary k -> only_set k scripts ->
  lsys_run sh lsched (lbegin scripts s0) = Some x ->
  call_at scripts a = Some c -> asks (c_req c) CSet kt (k :: l) -> lreturned x a r ->
  (exists v, spelt k c v /\ responds (c_env c) (c_res c) v r) \/
  (r = CErr EArgumentRetrieval (c_res c) /\ exists t, (kt = None \/ kt = Some t) /\ value_of t l = None) \/
  r = CErr EKeyTypeDifferent (c_res c).
Proof. exact c114_locked_outcomes. Qed.
Print Assumptions C114_locked_outcomes.

(** C114, with the locks of the map: if all Sets of the key name the same type and their arguments are of it, all
    of them succeed. *)
Theorem C114_locked_same_type :
  forall sh k scripts s0 t lsched x,
  room_for_all scripts s0 -> envs_ok scripts -> ordinary k -> only_set k scripts ->
  (forall c kt l, issued scripts c -> asks (c_req c) CSet kt (k :: l) ->
     kt = Some t /\ is_Some (value_of t l)) ->
  lsys_run sh lsched (lbegin scripts s0) = Some x ->
  forall a c l r, call_at scripts a = Some c -> asks (c_req c) CSet (Some t) (k :: l) -> lreturned x a r ->
    exists v, value_of t l = Some v /\ responds (c_env c) (c_res c) v r.
Proof. exact c114_locked_same_type. Qed.
Print Assumptions C114_locked_same_type.

(** C116: tasks that share a memory client and set one key, and change it in no other way: every set that is sent
    returns its value or that the key holds another type; when all tasks have finished the key holds, whole,
    the value of one set that returned it, and no set that succeeded began after that one had returned; or
    no set succeeded, and the key holds what it held before. *)
Theorem C116_sets :
  forall sh tasks k s0 sched x,
  tasks_fit tasks s0 -> sendable tasks -> ordinary k ->
  (forall e c, made_by_one tasks e c -> (exists v, sets_value c k v /\ sound v) \/ ~ changes c k) ->
  at_work sh tasks s0 sched = Some x ->
  (forall a e c v r, task_call tasks a = Some (e, c) -> sets_value c k v -> got tasks x a r ->
     match refused c with
     | Some err => r = RErr err
     | None => r = ROk (RpValue v) \/ r = RErr (CERunningCommand EKeyTypeDifferent)
     end) /\
  (Forall lfinished x.1 -> unlocked sh x k ->
   (exists a e c v, task_call tasks a = Some (e, c) /\ sets_value c k v /\ got tasks x a (ROk (RpValue v)) /\
      st_keys x.2 !! k = Some v /\
      forall b e' c' v', task_call tasks b = Some (e', c') -> sets_value c' k v' ->
        got tasks x b (ROk (RpValue v')) -> ~ earlier sh tasks s0 sched a b) \/
   (st_keys x.2 !! k = st_keys s0 !! k /\
    forall a e c v r, task_call tasks a = Some (e, c) -> sets_value c k v -> got tasks x a r ->
      exists err, r = RErr err)).
Proof. exact c116. Qed.
Print Assumptions C116_sets.

Example C116_nonvacuous :
  tasks_fit set_tasks set_store /\ sendable set_tasks /\ ordinary (lit "l") /\
  (forall e c, made_by_one set_tasks e c ->
     (exists v, sets_value c (lit "l") v /\ sound v) \/ ~ changes c (lit "l")) /\
  match at_work one_shard set_tasks set_store set_sched with
  | Some x =>
      zip_with (fun h cl => results h (lc_done cl)) set_tasks x.1 =
        [[ROk (RpValue (VList [lit "x"])); ROk (RpValue (VList [lit "y"; lit "z"]))];
         [ROk (RpValue (VList [lit "y"; lit "z"]))];
         [RErr (CERunningCommand EKeyTypeDifferent); ROk (RpValue (VInteger 7))]] /\
      Forall lfinished x.1 /\ st_keys x.2 !! lit "l" = Some (VList [lit "y"; lit "z"])
  | None => False
  end.
Proof.
  split_and!.
  - roomy_all.
  - each_task_call; (split; [apply env_std_ok|vm_compute; discriminate]).
  - apply ordinary_dec. vm_compute. reflexivity.
  - each_task_call.
    + left. exists (VList [lit "x"]). split; [by left|]. by apply small_sound; try done; vm_compute.
    + right. by intros [].
    + left. exists (VList [lit "y"; lit "z"]). split; [by right|]. by apply small_sound; try done; vm_compute.
    + left. exists (VString (lit "w")). split; [by left|]. by apply small_sound; try done; vm_compute.
    + right. cbn. by intros ?%elem_of_list_singleton.
  - vm_compute. split_and!; try reflexivity. by repeat constructor.
Qed.

(** C116: and if all of them set it to values of the same type, every set that is sent returns its value. *)
Theorem C116_same_kind :
  forall sh tasks k s0 t sched x,
  tasks_fit tasks s0 -> sendable tasks -> ordinary k ->
  (forall e c, made_by_one tasks e c ->
     (exists v, sets_value c k v /\ sound v /\ kind v = t) \/ ~ changes c k) ->
  at_work sh tasks s0 sched = Some x ->
  forall a e c v r, task_call tasks a = Some (e, c) -> sets_value c k v -> got tasks x a r ->
    r = match refused c with Some err => RErr err | None => ROk (RpValue v) end.
Proof. exact c116_same_kind. Qed.
Print Assumptions C116_same_kind.

Example C116_same_kind_nonvacuous :
  forall e c, made_by_one (take 2 set_tasks) e c ->
  (exists v, sets_value c (lit "l") v /\ sound v /\ kind v = KTList) \/ ~ changes c (lit "l").
Proof.
  each_task_call.
  - left. exists (VList [lit "x"]). split; [by left|]. split; [|done]. by apply small_sound; try done; vm_compute.
  - right. by intros [].
  - left. exists (VList [lit "y"; lit "z"]). split; [by right|]. split; [|done].
    by apply small_sound; try done; vm_compute.
Qed.

(** C117: of the tasks that delete a key or rename it through a shared memory client at most one takes what was
    there, and the key is as it was until then and gone for good after that.  That call returns the deleted or
    the new name; every other that is sent returns that there was nothing to take, and then it was not over
    before that one began, or that its new name was in use; one that is refused is not it.  When it has
    returned, the value is at its new name, and at no other of these names, unless other calls change
    those names. *)
Theorem C117_one :
  forall sh tasks k s0 v0 sched x,
  tasks_fit tasks s0 -> sendable tasks ->
  st_keys s0 !! k = Some v0 ->
  (forall e c, made_by_one tasks e c -> takes_away k c \/ ~ changes c k) ->
  at_work sh tasks s0 sched = Some x ->
  exists won : option (nat * nat),
  (unlocked sh x k -> st_keys x.2 !! k = match won with None => Some v0 | Some _ => None end) /\
  (forall w, won = Some w -> exists e c, task_call tasks w = Some (e, c) /\ takes_away k c) /\
  (forall a e c r, task_call tasks a = Some (e, c) -> takes_away k c -> got tasks x a r ->
     match refused c with
     | Some err => r = RErr err /\ won <> Some a
     | None =>
       if decide (won = Some a)
       then (lenN (returned_name c) < 2 ^ 32 - 16)%N -> r = ROk (RpBytes (returned_name c))
       else lost_to k tasks s0 (earlier sh tasks s0 sched) won a c r
     end) /\
  (forall b, b <> k -> only_by_taking k b tasks -> unlocked sh x b ->
     st_keys x.2 !! b = st_keys s0 !! b \/
     exists w e, won = Some w /\ task_call tasks w = Some (e, KRename k b) /\ st_keys x.2 !! b = Some v0) /\
  (forall w e b r, won = Some w -> task_call tasks w = Some (e, KRename k b) ->
     only_by_taking k b tasks -> got tasks x w r -> unlocked sh x b -> st_keys x.2 !! b = Some v0).
Proof. exact c117. Qed.
Print Assumptions C117_one.

Example C117_nonvacuous :
  tasks_fit take_tasks take_store /\ sendable take_tasks /\ st_keys take_store !! lit "a" = Some (VInteger 5) /\
  (forall e c, made_by_one take_tasks e c -> takes_away (lit "a") c \/ ~ changes c (lit "a")) /\
  only_by_taking (lit "a") (lit "b") take_tasks /\ only_by_taking (lit "a") (lit "c") take_tasks /\
  only_by_taking (lit "a") (lit "n") take_tasks /\
  match at_work one_shard take_tasks take_store take_sched with
  | Some x =>
      zip_with (fun h cl => results h (lc_done cl)) take_tasks x.1 =
        [[RErr (CERunningCommand EKeyNonexistent)];
         [RErr (CEBuildingRequest BEArgumentEmpty); ROk (RpBytes (lit "c")); ROk (RpValue (VInteger 5))];
         [RErr (CERunningCommand EPreconditionFailed); RErr (CERunningCommand EPreconditionFailed)]] /\
      Forall lfinished x.1 /\ st_keys x.2 !! lit "a" = None /\ st_keys x.2 !! lit "b" = None /\
      st_keys x.2 !! lit "c" = Some (VInteger 5)
  | None => False
  end.
Proof.
  assert (Hall : forall e c, made_by_one take_tasks e c -> takes_away (lit "a") c \/ c = KGet (lit "c")).
  { each_task_call; first [by left; left|by right|by left; right; eexists; split; [|reflexivity]]. }
  assert (Hch : forall b e c, made_by_one take_tasks e c -> changes c b -> takes_away (lit "a") c).
  { intros b e c Hm Hc. by destruct (Hall e c Hm) as [| ->]. }
  split; [|split; [|split; [|split; [|split; [|split; [|split]]]]]]; [| | | |intros e c; apply Hch..|].
  - roomy_all.
  - each_task_call; (split; [apply env_std_ok|vm_compute; discriminate]).
  - reflexivity.
  - intros e c Hm. destruct (Hall e c Hm) as [| ->]; [by left|right]. by intros [].
  - vm_compute. split_and!; try reflexivity. by repeat constructor.
Qed.
