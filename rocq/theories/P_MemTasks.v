(** Properties of tasks that share one memory client: C95 - C97, C100, C102.
    The vocabulary is in [MemTaskSpec], [MemAppendSpec], [MemLinSpec] and [ClientSpec]; the tasks are in [MemTasks], and run on the
    store with its locks, [LockScripts]. *)
From Coq Require Import String.
From Verif Require Import Locks LockSpec LockScripts LockScriptSpec.
From Verif Require Import Bytes BytesFacts Utf8 Float64 Value CommandId
  Request Response RespContext Metrics Prog Commands EngineSpec WireSpec RequestSpec
  HistorySpec EngineProps ConcSpec ConcProps Scripts LinSpec Client ClientSpec ClientFacts ClientProps
  MemTasks MemTaskSpec MemTaskFacts MemAppendSpec MemAppend MemLinSpec MemLin.
From stdpp Require Import gmap list.
From Coq Require Import NArith ZArith.

(** All keys in one shard. *)
Definition one_shard : shards := Shards (fun _ => 0%N) (fun _ => 0%N).

(** Three tasks: the first has its key to itself; the others count with one counter and both delete
    a key. *)
Notation dbg := (env_std true) (only parsing).
Definition example_store : store := store_of [(lit "n", VInteger 40); (lit "old", VInteger 1)].
Definition example_tasks : list task :=
  [[(dbg, KSet (lit "a") (VInteger 5)); (dbg, KIncrementBy (lit "a") (VInteger 2));
    (dbg, KGet []); (dbg, KGet (lit "a"))];
   [(dbg, KIncrement (lit "n") None); (dbg, KDelete (lit "old"))];
   [(dbg, KIncrementInt (lit "n") None); (dbg, KDelete (lit "old")); (dbg, KGet (lit "n"))]].
Definition example_sched : list (nat * list value) :=
  map (fun i => (i, [VInteger 99]))
    [0; 1; 2; 0; 0; 0; 1; 1; 1; 1; 1; 2; 1; 2; 1; 2; 1; 2; 1; 2; 0; 1; 2; 0; 2;
     0; 1; 2; 1; 2; 1; 2; 0; 1; 0; 1; 0; 1; 2; 1; 2; 2; 0; 2; 0; 2; 0; 2; 0; 2;
     0; 2; 0; 2; 0; 2; 0; 2; 0; 2; 0; 2; 0; 2; 0; 2; 0; 0; 0; 0; 0; 0; 0; 0; 0;
     0; 0; 0; 0; 0; 0]%nat.

Ltac each_task_call := let i := fresh "i" in let j := fresh "j" in let H := fresh "H" in
  intros ? ? [[i j] H]; unfold task_call in H; cbn [fst snd] in H;
  destruct i as [|[|[|i]]]; cbn in H; [..|by destruct i];
  destruct j as [|[|[|[|j]]]]; cbn in H; try done; injection H as <- <-.

(** C95: the dispatches of a task and the results made of their outcomes are the calls of the client
    (C42), when the task is alone. *)
Theorem C95_one_task :
  forall h,
  forall s,
  mem_calls h s = ((run_calls (dispatches h) s).1, results h (run_calls (dispatches h) s).2).
Proof. exact alone_is_mem_calls. Qed.
Print Assumptions C95_one_task.

(** C95: a task that shares a memory client with other tasks, none of which may change the keys it uses,
    gets from every call what the map of C42 says, whatever the other tasks do meanwhile; and when it
    has finished, its keys are as in that map. *)
Theorem C95_own_keys :
  forall sh tasks i h s0 sched x cl,
  tasks_fit tasks s0 -> sendable tasks -> all_sound (st_keys s0) ->
  tasks !! i = Some h -> own_keys tasks i -> all_within h (Ideal (st_keys s0) 0 0) ->
  at_work sh tasks s0 sched = Some x -> x.1 !! i = Some cl ->
  let there := map_calls h (Ideal (st_keys s0) 0 0) in
  let returned := results h (lc_done cl) in
  Forall2 meets returned (take (length returned) there.2) /\
  (lfinished cl -> length returned = length h /\
     forall k e c, (e, c) ∈ h -> refused c = None -> touches c k -> unlocked sh x k ->
       st_keys x.2 !! k = i_keys there.1 !! k).
Proof. exact c95. Qed.
Print Assumptions C95_own_keys.

Example C95_nonvacuous :
  tasks_fit example_tasks example_store /\ sendable example_tasks /\ all_sound (st_keys example_store) /\
  own_keys example_tasks 0 /\
  (forall h, example_tasks !! 0%nat = Some h -> all_within h (Ideal (st_keys example_store) 0 0)) /\
  match at_work one_shard example_tasks example_store example_sched with
  | Some x =>
      zip_with (fun h cl => results h (lc_done cl)) example_tasks x.1 =
        [[ROk (RpValue (VInteger 5)); ROk (RpValue (VInteger 7));
          RErr (CEBuildingRequest BEArgumentEmpty); ROk (RpValue (VInteger 7))];
         [ROk (RpValue (VInteger 41)); ROk (RpBytes (lit "old"))];
         [ROk (RpValue (VInteger 42)); RErr (CERunningCommand EPreconditionFailed);
          ROk (RpValue (VInteger 42))]] /\
      Forall lfinished x.1 /\
      st_keys x.2 !! lit "n" = Some (VInteger 42) /\ st_keys x.2 !! lit "old" = None
  | None => False
  end.
Proof.
  split_and!.
  - intros m. unfold example_store, store_of, count. cbn [st_counters]. rewrite lookup_empty.
    vm_compute. reflexivity.
  - each_task_call; (split; [apply env_std_ok|vm_compute; discriminate]).
  - apply ok_keys_sound. vm_compute. reflexivity.
  - intros j e c Hc.
    assert (Hk : c <> KStats /\ forall k, touches c k -> k = lit "a" \/ k = []).
    { unfold task_call in Hc. destruct j as [|[|[|[|j]]]]; cbn in Hc; try done;
        injection Hc as <- <-; (split; [done|]); intros k Hk%elem_of_list_singleton; auto. }
    destruct Hk as [Hns Hk]. split; [done|]. intros i' j' e' c' k Hc' Hne Ht.
    unfold task_call in Hc'. destruct i' as [|[|[|i']]]; cbn in Hc'; [done|..|by destruct i'];
      destruct j' as [|[|[|j']]]; cbn in Hc'; try done; injection Hc' as <- <-;
      cbn; try (by intros []); intros ->%elem_of_list_singleton; by destruct (Hk _ Ht).
  - intros h [= <-]. apply (ok_calls_within (env_std true)
      [KSet (lit "a") (VInteger 5); KIncrementBy (lit "a") (VInteger 2); KGet []; KGet (lit "a")]);
      [apply env_std_ok|vm_compute; reflexivity].
  - vm_compute. split_and!; try reflexivity. by repeat constructor.
Qed.

(** C96: tasks that share a memory client and count with one integer key get consecutive numbers, each
    once: the increment at place [i] returns the start plus [i + 1]; one that is called after another
    has returned gets a larger number; and the counter holds the last number given. *)
Theorem C96_tickets :
  forall sh tasks k s0 z0 sched x,
  tasks_fit tasks s0 -> sendable tasks -> ordinary k -> k <> [] ->
  st_keys s0 !! k = Some (VInteger z0) ->
  i64_range z0 -> i64_range (z0 + Z.of_nat (length (concat tasks))) ->
  (forall e c, made_by_one tasks e c -> counts_one c k \/ ~ changes c k) ->
  at_work sh tasks s0 sched = Some x ->
  exists out : list (nat * nat), NoDup out /\
  (forall a, a ∈ out -> exists e c, task_call tasks a = Some (e, c) /\ counts_one c k) /\
  (forall a e c r, task_call tasks a = Some (e, c) -> counts_one c k -> got tasks x a r ->
     exists i, out !! i = Some a /\ r = ROk (RpValue (VInteger (z0 + 1 + Z.of_nat i)))) /\
  (forall i j a b, out !! i = Some a -> out !! j = Some b ->
     earlier sh tasks s0 sched a b -> i < j) /\
  (unlocked sh x k -> st_keys x.2 !! k = Some (VInteger (z0 + Z.of_nat (length out)))).
Proof. exact c96. Qed.
Print Assumptions C96_tickets.

Example C96_nonvacuous :
  ordinary (lit "n") /\ lit "n" <> [] /\ st_keys example_store !! lit "n" = Some (VInteger 40) /\
  i64_range 40 /\ i64_range (40 + Z.of_nat (List.length (concat example_tasks))) /\
  (forall e c, made_by_one example_tasks e c -> counts_one c (lit "n") \/ ~ changes c (lit "n")).
Proof.
  split_and!; [apply ordinary_dec; vm_compute; reflexivity|done|reflexivity|done|done|].
  each_task_call; first [by left; unfold counts_one; auto 6|right; cbn; by intros ?%elem_of_list_singleton|right; cbn; by intros []].
Qed.

(** C97: of the tasks that delete one key through a shared memory client exactly one is told that it
    did; all others are told that there was none to delete; and none of them had returned before the
    one that did began. *)
Theorem C97_one_delete :
  forall sh tasks k s0 v0 sched x,
  tasks_fit tasks s0 -> sendable tasks -> k <> [] -> (lenN k < 2 ^ 32 - 16)%N ->
  st_keys s0 !! k = Some v0 ->
  (forall e c, made_by_one tasks e c -> c = KDelete k \/ ~ changes c k) ->
  at_work sh tasks s0 sched = Some x ->
  exists won : option (nat * nat),
  (unlocked sh x k -> st_keys x.2 !! k = match won with None => Some v0 | Some _ => None end) /\
  (forall b, won = Some b -> exists e, task_call tasks b = Some (e, KDelete k)) /\
  (forall a e r, task_call tasks a = Some (e, KDelete k) -> got tasks x a r ->
     exists b, won = Some b /\ ~ earlier sh tasks s0 sched a b /\
       r = if decide (a = b) then ROk (RpBytes k) else RErr (CERunningCommand EPreconditionFailed)).
Proof. exact c97. Qed.
Print Assumptions C97_one_delete.

Example C97_nonvacuous :
  lit "old" <> [] /\ (lenN (lit "old") < 2 ^ 32 - 16)%N /\
  st_keys example_store !! lit "old" = Some (VInteger 1) /\
  (forall e c, made_by_one example_tasks e c -> c = KDelete (lit "old") \/ ~ changes c (lit "old")).
Proof.
  split_and!; [done|vm_compute; reflexivity|reflexivity|].
  each_task_call; first [by left|right; cbn; by intros ?%elem_of_list_singleton|right; cbn; by intros []].
Qed.

(** C100: tasks that share a memory client and append values to one key that is there lose nothing: the
    appended values are put behind the first one whole and one after the other; every append returns the
    value with its own and those before it; one that is called after another has returned comes after it;
    one that is refused returns why and appends nothing; and the key holds all of them. *)
Theorem C100_appends :
  forall sh tasks k s0 v0 sched x,
  tasks_fit tasks s0 -> sendable tasks -> ordinary k -> k <> [] ->
  st_keys s0 !! k = Some v0 -> appendable v0 ->
  (forall e c, made_by_one tasks e c ->
     (exists v, appends_value c k v /\ kind v = kind v0 /\ value_wf v) \/ ~ changes c k) ->
  at_work sh tasks s0 sched = Some x ->
  exists (out : list (nat * nat)) (vs : list value), NoDup out /\
  Forall2 (fun a v => exists e c, task_call tasks a = Some (e, c) /\ appends_value c k v /\
    refused c = None) out vs /\
  (forall a e c v r, task_call tasks a = Some (e, c) -> appends_value c k v -> got tasks x a r ->
     match refused c with
     | Some err => r = RErr err
     | None => exists i w, out !! i = Some a /\ joined_all v0 (take (S i) vs) = Some w /\
         (sound w -> r = ROk (RpValue w))
     end) /\
  (forall i j a b, out !! i = Some a -> out !! j = Some b ->
     earlier sh tasks s0 sched a b -> i < j) /\
  exists w, joined_all v0 vs = Some w /\ (unlocked sh x k -> st_keys x.2 !! k = Some w).
Proof. exact c100. Qed.
Print Assumptions C100_appends.

Definition append_store : store := store_of [(lit "l", VList [lit "x"])].
Definition append_tasks : list task :=
  [[(dbg, KAppend (lit "l") (VList [lit "a"; lit "b"])); (dbg, KGet (lit "l"))];
   [(dbg, KAppendTyped (lit "l") (VList [lit "c"])); (dbg, KAppend (lit "l") (VList [lit ""]));
    (dbg, KIncrement (lit "n") None)]].
Definition append_sched : list (nat * list value) :=
  map (fun i => (i, [VInteger 99]))
    [1; 0; 1; 1; 1; 1; 1; 0; 1; 0; 1; 0; 1; 0; 1; 0; 1; 0; 1; 0; 1; 0; 1;
     0; 1; 0; 1; 1; 0; 0; 0; 1; 0; 1; 0; 1; 0; 1; 0; 1; 1; 1; 1; 1]%nat.

Example C100_nonvacuous :
  tasks_fit append_tasks append_store /\ sendable append_tasks /\ ordinary (lit "l") /\
  appendable (VList [lit "x"]) /\ st_keys append_store !! lit "l" = Some (VList [lit "x"]) /\
  (forall e c, made_by_one append_tasks e c ->
     (exists v, appends_value c (lit "l") v /\ kind v = kind (VList [lit "x"]) /\ value_wf v) \/
     ~ changes c (lit "l")) /\
  match at_work one_shard append_tasks append_store append_sched with
  | Some x =>
      zip_with (fun h cl => results h (lc_done cl)) append_tasks x.1 =
        [[ROk (RpValue (VList [lit "x"; lit "c"; lit "a"; lit "b"]));
          ROk (RpValue (VList [lit "x"; lit "c"; lit "a"; lit "b"]))];
         [ROk (RpValue (VList [lit "x"; lit "c"])); RErr (CEBuildingRequest BEArgumentEmpty);
          ROk (RpValue (VInteger 1))]] /\
      Forall lfinished x.1 /\
      st_keys x.2 !! lit "l" = Some (VList [lit "x"; lit "c"; lit "a"; lit "b"])
  | None => False
  end.
Proof.
  split_and!.
  - intros m. unfold append_store, store_of, count. cbn [st_counters]. rewrite lookup_empty.
    vm_compute. reflexivity.
  - each_task_call; (split; [apply env_std_ok|vm_compute; discriminate]).
  - apply ordinary_dec. vm_compute. reflexivity.
  - exact I.
  - reflexivity.
  - each_task_call; first [by left; eexists; split; [by left|]|by left; eexists; split; [by right|]
      |right; cbn; by intros ?%elem_of_list_singleton|right; cbn; by intros []].
  - vm_compute. split_and!; try reflexivity. by repeat constructor.
Qed.

(** C102: if every call that may change [k] looks at it, deletes it, or adds to it (then it is there at the
    start and never deleted), then at every instant the calls about [k] that have taken effect stand in
    one order, which only grows, in which each call was inserted after it had begun and before it
    returned: one task making these calls alone would have left at [k] what is there, and got all the
    results returned so far.  Calls about other keys do not matter, whatever they are. *)
Theorem C102_one_key :
  forall sh k tasks s0 sched x,
  tasks_fit tasks s0 -> sendable tasks -> plain_at k tasks s0 ->
  at_work sh tasks s0 sched = Some x ->
  exists order : nat -> list (nat * nat),
  (forall m n, m <= n <= length sched -> order m `prefix_of` order n) /\
  (forall n y, n <= length sched -> at_work sh tasks s0 (take n sched) = Some y ->
   exists h, as_if_alone sh k tasks s0 (order n) h y) /\
  forall i j a b, order (length sched) !! i = Some a -> order (length sched) !! j = Some b ->
    earlier sh tasks s0 sched a b -> i < j.
Proof. exact c102. Qed.
Print Assumptions C102_one_key.

(** C102: and if the calls in that order are within the limits of C42, then what is at [k] and the results
    returned are those of the map of C42. *)
Theorem C102_as_map :
  forall sh k tasks s0 l h x,
  tasks_fit tasks s0 -> sendable tasks -> all_sound (st_keys s0) ->
  as_if_alone sh k tasks s0 l h x -> all_within h (Ideal (st_keys s0) 0 0) ->
  let there := map_calls h (Ideal (st_keys s0) 0 0) in
  (unlocked sh x k -> st_keys x.2 !! k = i_keys there.1 !! k) /\
  forall a e c r, task_call tasks a = Some (e, c) -> on_key k c -> refused c = None ->
    got tasks x a r -> exists p y, l !! p = Some a /\ there.2 !! p = Some y /\ meets r y.
Proof. exact c102_as_map. Qed.
Print Assumptions C102_as_map.

Example C102_nonvacuous :
  plain_at (lit "n") example_tasks example_store /\ plain_at (lit "old") example_tasks example_store /\
  plain_at (lit "l") append_tasks append_store /\
  all_within [(dbg, KIncrement (lit "n") None); (dbg, KIncrementInt (lit "n") None); (dbg, KGet (lit "n"))]
    (Ideal (st_keys example_store) 0 0).
Proof.
  split_and!.
  - each_task_call; (split; [first [by left; left|by left; right|right; cbn; by intros ?%elem_of_list_singleton|right; cbn; by intros []]|]);
      try done; intros _; (split; [by eexists|]); intros e' [[i j] H]; unfold task_call in H; cbn [fst snd] in H;
      destruct i as [|[|[|i]]]; cbn in H; try (by destruct i);
      destruct j as [|[|[|[|j]]]]; cbn in H; try done; injection H; done.
  - each_task_call; (split; [first [by left; left|right; cbn; by intros ?%elem_of_list_singleton|right; cbn; by intros []]|done]).
  - each_task_call; (split; [first [by left; left|by left; right|right; cbn; by intros ?%elem_of_list_singleton|right; cbn; by intros []]|]);
      try done; intros _; (split; [by eexists|]); intros e' [[i j] H]; unfold task_call in H; cbn [fst snd] in H;
      destruct i as [|[|i]]; cbn in H; try (by destruct i);
      destruct j as [|[|[|j]]]; cbn in H; try done; injection H; done.
  - apply (ok_calls_within (env_std true)
      [KIncrement (lit "n") None; KIncrementInt (lit "n") None; KGet (lit "n")]);
      [apply env_std_ok|vm_compute; reflexivity].
Qed.
