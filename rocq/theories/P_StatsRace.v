(** What Stats calls report while other calls are made: C119.  The vocabulary is in [StatsRaceSpec] and, for tasks
    that share a memory client, in [MemStatsSpec]; clients that issue one call after another are in [Scripts],
    with the locks in [LockScripts], and tasks in [MemTasks]. *)
From Coq Require Import String.
From Verif Require Import Locks LockSpec LockScripts LockScriptSpec.
From Verif Require Import Bytes BytesFacts Utf8 Float64 Value CommandId
  Request Response RespContext Metrics Prog Commands EngineSpec WireSpec RequestSpec
  HistorySpec EngineProps ConcSpec ConcFacts ConcProps Scripts LinSpec LinFacts KeyLinSpec Client ClientSpec ClientFacts
  ClientProps MemTasks MemTaskSpec MemTaskFacts MomentFacts SetRaceSpec StatsRaceSpec StatsRace
  MemStatsSpec MemStats.
From stdpp Require Import gmap list.
From Coq Require Import NArith ZArith Lia.

Ltac each_call := let c := fresh "c" in let Hc := fresh "Hc" in
  intros c Hc%issued_concat; cbn [concat app] in Hc;
  repeat (apply elem_of_cons in Hc as [->|Hc]); [..|by apply elem_of_nil in Hc].
Ltac each_task_call := let i := fresh "i" in let j := fresh "j" in let H := fresh "H" in
  intros ? ? [[i j] H]; unfold task_call in H; cbn [fst snd] in H;
  destruct i as [|[|[|i]]]; cbn in H; try done; try (by destruct i);
  destruct j as [|[|[|[|j]]]]; cbn in H; try done; injection H as <- <-.

(** The state, the clients and the tasks of the examples. *)
Definition one_shard : shards := Shards (fun _ => 0%N) (fun _ => 0%N).
Notation dbg := (env_std true) (only parsing).
Definition example_store : store := store_of [(lit "n", VInteger 5); (lit "l", VList [lit "x"])].
Notation incr k := (ask CIncrement None [lit k]) (only parsing).
Notation get k := (ask CGet None [lit k]) (only parsing).
Notation stats := (ask CStats None []) (only parsing).
Notation stats_scripts := [[get "n"; stats; get "n"]; [incr "l"; stats]; [stats; incr "n"]] (only parsing).
Definition stats_sched : list nat :=
  [2; 2; 0; 0; 0; 0; 1; 1; 1; 1; 2; 2; 2; 0; 1; 2; 0; 1; 2; 0; 1; 2; 0; 1; 2; 0; 1; 2; 0; 1; 0; 0; 0; 0]%nat.
Definition stats_tasks : list task :=
  [[(dbg, KGet (lit "n")); (dbg, KStats); (dbg, KGet (lit "n"))];
   [(dbg, KIncrement (lit "l") None); (dbg, KGet []); (dbg, KStats)];
   [(dbg, KStats); (dbg, KIncrement (lit "n") None)]].
Definition tasks_sched : list (nat * list value) := map (fun i => (i, [VInteger 99]))
  [2; 2; 2; 2; 0; 1; 2; 0; 2; 0; 2; 0; 1; 2; 1; 2; 1; 2; 0; 1; 0; 1; 0; 1; 0; 1; 0; 1; 2; 1; 2; 1; 2; 0; 1; 2; 0;
   1; 2; 0; 1; 2; 0; 1; 2; 0; 1; 2; 0; 1; 2; 0; 1; 2; 0; 1; 0; 1; 2; 2; 2; 0; 2; 0; 0; 1; 0; 1; 0; 1; 0; 1; 0; 0;
   0; 0; 0; 0]%nat.

(** C119: for every schedule of clients that issue any commands there are numbers for the Stats calls that have
    returned such that: the answer is the encoding of a map with these numbers and the number of
    sessions; each number is at least the initial count and the calls with that outcome that were over
    before the Stats call began, and at most the initial count and the calls that began before it was over, except
    those that returned the other outcome; and a Stats call that began after another was over says at least one
    successful command more, and no fewer failed ones. *)
Theorem C119_stats :
  forall scripts s0 sched x,
  (forall m, (count s0 m + lenN (concat scripts) < 2 ^ 63)%N) -> envs_ok scripts ->
  sys_run sched (begin scripts s0) = Some x ->
  exists n, stats_fit scripts s0 (before scripts s0 sched) (returned x) n.
Proof. exact c119. Qed.
Print Assumptions C119_stats.

(** A Stats call may count a command that succeeded while it ran and miss one that failed while it ran. *)
Example C119_stats_nonvacuous :
  (forall m, (count example_store m + lenN (concat stats_scripts) < 2 ^ 63)%N) /\ envs_ok stats_scripts /\
  asks_stats stats /\
  match sys_run stats_sched (begin stats_scripts example_store) with
  | Some x =>
      map (fun cl => match cl_done cl with
           | [COk _; COk b; COk _] | [CErr _ _; COk b] | [COk b; COk _] =>
             match (resp_feed true resp_ctx_new b).2 with
             | PConcluded (RValue (VMap d)) => map_to_list d
             | _ => []
             end
           | _ => []
           end) x.1 =
        [[(lit "commands_errored", i64_enc 1); (lit "commands_successful", i64_enc 2)];
         [(lit "commands_errored", i64_enc 1); (lit "commands_successful", i64_enc 2)];
         [(lit "commands_successful", i64_enc 1)]] /\
      map_to_list (st_counters x.2) = [(MCommandsSuccessful, 6%N); (MCommandsErrored, 1%N)]
  | None => False
  end.
Proof.
  split_and!.
  - intros m. unfold example_store, store_of, count. cbn [st_counters]. rewrite lookup_empty. vm_compute. reflexivity.
  - each_call; apply env_std_ok.
  - exists []. apply stats_asks.
  - vm_compute. split_and!; reflexivity.
Qed.

(** C119 with the locks of the store. *)
Theorem C119_stats_locked :
  forall sh scripts s0 sched x,
  (forall m, (count s0 m + lenN (concat scripts) < 2 ^ 63)%N) -> envs_ok scripts ->
  lsys_run sh sched (lbegin scripts s0) = Some x ->
  exists n, stats_fit scripts s0 (lbefore sh scripts s0 sched) (lreturned x) n.
Proof. exact c119_locked. Qed.
Print Assumptions C119_stats_locked.

(** The clients of [C119_stats_nonvacuous], with locks. *)
Example C119_stats_locked_nonvacuous :
  match lsys_run one_shard (map (fun i => (i, []))
    [0; 0; 0; 1; 2; 0; 1; 2; 1; 2; 1; 2; 0; 1; 0; 0; 1; 0; 1; 0; 1; 2; 0; 1; 2; 0; 1; 2; 0; 1; 2; 0; 1; 2; 0; 1;
     2; 0; 1; 0; 1; 0; 1; 0; 1; 1; 1; 2; 2; 2; 0; 2; 0; 2; 0; 1; 2; 0; 1; 2; 0; 1; 2; 1; 2; 0; 2; 0; 2; 0; 2; 0;
     2; 0; 0; 0]%nat)
    (lbegin stats_scripts example_store) with
  | Some x =>
      map (fun cl => match lc_done cl with
           | [COk _; COk b; COk _] | [CErr _ _; COk b] | [COk b; COk _] =>
             match (resp_feed true resp_ctx_new b).2 with
             | PConcluded (RValue (VMap d)) => map_to_list d
             | _ => []
             end
           | _ => []
           end) x.1 =
        [[(lit "commands_errored", i64_enc 1); (lit "commands_successful", i64_enc 1)];
         [(lit "commands_errored", i64_enc 1); (lit "commands_successful", i64_enc 1)];
         [(lit "commands_successful", i64_enc 1)]] /\
      map_to_list (st_counters x.2) = [(MCommandsSuccessful, 6%N); (MCommandsErrored, 1%N)]
  | None => False
  end.
Proof. vm_compute. split_and!; reflexivity. Qed.

(** C119 for tasks that share a memory client: a call for the statistics returns the numbers, each at least the
    initial count and the calls of that outcome that had returned before it began, and at most the
    initial count and the calls that were made before it returned; and a later call returns more successful
    commands and no fewer failed ones. *)
Theorem C119_tasks :
  forall sh tasks s0 sched x,
  tasks_fit tasks s0 -> sendable tasks -> at_work sh tasks s0 sched = Some x ->
  exists ok err : nat * nat -> N,
  (forall a e r, task_call tasks a = Some (e, KStats) -> got tasks x a r ->
     r = ROk (RpStats (Z.of_N (ok a)) (Z.of_N (err a)) (Z.of_N (count s0 MSessionsStarted)) 0) /\
     count_between sh tasks s0 sched (done_well tasks x) (done_badly tasks x) a (count s0 MCommandsSuccessful) (ok a) /\
     count_between sh tasks s0 sched (done_badly tasks x) (done_well tasks x) a (count s0 MCommandsErrored) (err a)) /\
  (forall a b e e' r r', task_call tasks a = Some (e, KStats) -> task_call tasks b = Some (e', KStats) ->
     got tasks x a r -> got tasks x b r' -> earlier sh tasks s0 sched a b ->
     (ok a < ok b)%N /\ (err a <= err b)%N).
Proof. exact c119_tasks. Qed.
Print Assumptions C119_tasks.

Example C119_tasks_nonvacuous :
  tasks_fit stats_tasks example_store /\ sendable stats_tasks /\
  match at_work one_shard stats_tasks example_store tasks_sched with
  | Some x =>
      zip_with (fun h cl => results h (lc_done cl)) stats_tasks x.1 =
        [[ROk (RpValue (VInteger 5)); ROk (RpStats 2 1 0 0); ROk (RpValue (VInteger 6))];
         [RErr (CERunningCommand EKeyTypeDifferent); RErr (CEBuildingRequest BEArgumentEmpty);
          ROk (RpStats 2 1 0 0)];
         [ROk (RpStats 0 0 0 0); ROk (RpValue (VInteger 6))]]
  | None => False
  end.
Proof.
  split_and!.
  - intros m. unfold example_store, store_of, count. cbn [st_counters]. rewrite lookup_empty. vm_compute. reflexivity.
  - each_task_call; (split; [apply env_std_ok|vm_compute; discriminate]).
  - vm_compute. reflexivity.
Qed.
