(** What clients see of a key that only grows: C118.  The vocabulary is in [ForwardSpec] and, for tasks that share
    a memory client, in [MemForwardSpec]; clients that issue one call after another are in [Scripts], with the
    map's locks in [LockScripts], and tasks in [MemTasks]. *)
From Coq Require Import String.
From Verif Require Import Locks LockSpec LockScripts LockScriptSpec.
From Verif Require Import Bytes BytesFacts Utf8 Float64 Value CommandId
  Request Response RespContext Metrics Prog Commands EngineSpec WireSpec RequestSpec
  HistorySpec EngineProps ConcSpec ConcFacts ConcProps Scripts LinSpec LinFacts KeyLinSpec Client ClientSpec ClientFacts
  ClientProps MemTasks MemTaskSpec MemTaskFacts MemAppendSpec SetRaceSpec ForwardSpec ForwardFacts
  MemForwardSpec MemForward.
From stdpp Require Import gmap list.
From Coq Require Import NArith ZArith Lia.

Ltac asked := apply a_request_asks; [reflexivity|vm_compute; discriminate|vm_compute; reflexivity].
Ltac each_call := let c := fresh "c" in let Hc := fresh "Hc" in
  intros c Hc%issued_concat; cbn [concat app] in Hc;
  repeat (apply elem_of_cons in Hc as [->|Hc]); [..|by apply elem_of_nil in Hc].
Ltac each_task_call := let i := fresh "i" in let j := fresh "j" in let H := fresh "H" in
  intros ? ? [[i j] H]; unfold task_call in H; cbn [fst snd] in H;
  destruct i as [|[|[|i]]]; cbn in H; try done; try (by destruct i);
  destruct j as [|[|[|[|j]]]]; cbn in H; try done; injection H as <- <-.

(** The state, the clients and the tasks of the examples. *)
Definition one_shard : shards := Shards (fun _ => 0%N) (fun _ => 0%N).
Notation dbg := (env_std true) (only parsing).
Definition example_store : store := store_of [(lit "n", VInteger 5); (lit "l", VList [lit "x"])].
Notation incr k := (ask CIncrement None [lit k]) (only parsing).
Notation incr_by k z := (ask CIncrementBy None [lit k; i64_enc z]) (only parsing).
Notation get k := (ask CGet None [lit k]) (only parsing).
Notation get_as t k := (ask CGet (Some t) [lit k]) (only parsing).
Notation push k l := (ask CAppend (Some KTList) (lit k :: l)) (only parsing).
Notation counter_scripts := [[incr "n"; get "n"]; [incr_by "n" 3; get_as KTInteger "n"]; [get "n"; get "l"]]
  (only parsing).
Notation log_scripts := [[push "l" [lit "a"; lit "b"]; get_as KTList "l"]; [get "l"; push "l" [lit "c"]; get "l"]]
  (only parsing).
Definition counter_tasks : list task :=
  [[(dbg, KIncrement (lit "n") None); (dbg, KGet (lit "n"))];
   [(dbg, KIncrementBy (lit "n") (VInteger 3)); (dbg, KGetTyped (lit "n") KTInteger)];
   [(dbg, KGet (lit "n")); (dbg, KIncrementInt (lit "n") None)]].
Definition counter_sched : list (nat * list value) := map (fun i => (i, [VInteger 99]))
  [0; 1; 2; 0; 0; 0; 0; 0; 1; 0; 1; 0; 1; 0; 1; 0; 1; 2; 0; 1; 2; 0; 1; 2; 0; 1; 2; 0; 1; 2; 1; 2; 0; 1; 2; 0; 1;
   2; 0; 1; 2; 0; 1; 2; 1; 2; 1; 2; 1; 2; 2; 2; 2; 2]%nat.
Definition log_tasks : list task :=
  [[(dbg, KAppend (lit "l") (VList [lit "a"; lit "b"])); (dbg, KGetTyped (lit "l") KTList)];
   [(dbg, KGet (lit "l")); (dbg, KAppendTyped (lit "l") (VList [lit "c"])); (dbg, KGet (lit "l"))]].
Definition log_sched : list (nat * list value) := map (fun i => (i, [VInteger 99]))
  [1; 0; 1; 1; 1; 1; 0; 1; 1; 0; 1; 1; 0; 0; 0; 1; 1; 0; 1; 1; 0; 1; 0; 1; 1; 0; 1; 1; 0; 1; 1; 0; 1; 1; 0; 1; 1;
   0; 1; 1; 0; 0; 0; 0]%nat.
Ltac roomy_all := let m := fresh in intros m; unfold example_store, store_of, count; cbn [st_counters];
  rewrite lookup_empty; vm_compute; reflexivity.

(** C118: clients add to a counter, never less than 0 and at most [D] at a time, and read it, all at once: every
    answer is at least the initial value and what the call added, and at most what is there now; and if one call
    was over before another began, what the second is told is at least what the first was told and what
    the second added. *)
Theorem C118_counter :
  forall k scripts s0 z0 D sched x,
  room_for_all scripts s0 -> envs_ok scripts -> ordinary k -> st_keys s0 !! k = Some (VInteger z0) ->
  (forall c, issued scripts c -> (exists d, adds_int c k d) \/ ~ may_write (c_req c) k) ->
  (forall c d, issued scripts c -> adds_int c k d -> (0 <= d <= D)%Z) -> (0 <= D)%Z ->
  i64_range z0 -> i64_range D -> i64_range (z0 + D * Z.of_nat (length (concat scripts))) ->
  sys_run sched (begin scripts s0) = Some x ->
  exists zn, st_keys x.2 !! k = Some (VInteger zn) /\
  (zn <= z0 + D * Z.of_nat (length (concat scripts)))%Z /\
  (forall a c d r, call_at scripts a = Some c -> counter_call c k d -> returned x a r ->
     exists z, responds (c_env c) (c_res c) (VInteger z) r /\ (z0 + d <= z <= zn)%Z) /\
  (forall a b c c' d d' r r', call_at scripts a = Some c -> call_at scripts b = Some c' ->
     counter_call c k d -> counter_call c' k d' -> returned x a r -> returned x b r' ->
     before scripts s0 sched a b ->
     exists z z', responds (c_env c) (c_res c) (VInteger z) r /\
       responds (c_env c') (c_res c') (VInteger z') r' /\ (z0 + d <= z /\ z + d' <= z' <= zn)%Z).
Proof. exact c118_counter. Qed.
Print Assumptions C118_counter.

Example C118_counter_nonvacuous :
  room_for_all counter_scripts example_store /\ envs_ok counter_scripts /\ ordinary (lit "n") /\
  st_keys example_store !! lit "n" = Some (VInteger 5) /\
  (forall c, issued counter_scripts c ->
     ((exists d, adds_int c (lit "n") d) \/ ~ may_write (c_req c) (lit "n")) /\
     forall d, adds_int c (lit "n") d -> (0 <= d <= 3)%Z) /\
  match sys_run ([2; 2] ++ replicate 5 0 ++ [2; 2; 1; 1] ++ replicate 3 0 ++ replicate 6 1 ++ replicate 4 2)%nat
          (begin counter_scripts example_store) with
  | Some x =>
      map cl_done x.1 = [[COk (resp_frame dbg (RValue (VInteger 6))); COk (resp_frame dbg (RValue (VInteger 9)))];
        [COk (resp_frame dbg (RValue (VInteger 9))); COk (resp_frame dbg (RValue (VInteger 9)))];
        [COk (resp_frame dbg (RValue (VInteger 5))); COk (resp_frame dbg (RValue (VList [lit "x"])))]] /\
      st_keys x.2 !! lit "n" = Some (VInteger 9)
  | None => False
  end.
Proof.
  split_and!; [roomy_all|each_call; apply env_std_ok|apply ordinary_dec; vm_compute; reflexivity|reflexivity| |].
  - assert (Hget : forall c kt k, asks (c_req c) CGet kt [k] ->
      ((exists d, adds_int c (lit "n") d) \/ ~ may_write (c_req c) (lit "n")) /\
      forall d, adds_int c (lit "n") d -> (0 <= d <= 3)%Z).
    { intros c kt k (Hq & _). split; [right; intros [Hw _]; by rewrite Hq in Hw|].
      intros d (cmd & kt' & l & (Hq' & _) & Hch). rewrite Hq in Hq'. subst cmd.
      by destruct Hch as [(? & _)|[(? & _)|(? & ? & ? & _ & _ & [[? _]|[? _]])]]. }
    assert (Hadd : forall c d, adds_int c (lit "n") d -> (0 <= d <= 3)%Z ->
      ((exists d, adds_int c (lit "n") d) \/ ~ may_write (c_req c) (lit "n")) /\
      forall d, adds_int c (lit "n") d -> (0 <= d <= 3)%Z).
    { intros c d Ha Hd. split; [left; by exists d|]. intros d' Ha'. by rewrite (adds_int_fun _ _ _ _ Ha' Ha). }
    each_call; try (eapply Hget; asked).
    + apply (Hadd _ 1%Z); [|lia]. exists CIncrement, None, [lit "n"]. split; [asked|]. left.
      split_and!; [done|done|by exists []|done].
    + apply (Hadd _ 3%Z); [|lia]. exists CIncrementBy, None, [lit "n"; i64_enc 3]. split; [asked|]. right. right.
      exists 3%Z, [], []. split_and!; [by rewrite app_nil_r|vm_compute; split; [discriminate|reflexivity]|by left].
  - vm_compute. split_and!; reflexivity.
Qed.

(** C118: clients append to a value and read it, all at once: every answer is the initial value, possibly something
    behind it and then what the call itself appended, and what is there now is the answer and possibly something
    behind it; and if one call was over before another began, the second is told what the first was told,
    possibly something behind it and then what it appended itself. *)
Theorem C118_log :
  forall k scripts s0 t v0 sched x,
  room_for_all scripts s0 -> envs_ok scripts -> ordinary k -> st_keys s0 !! k = Some v0 -> kind v0 = t ->
  is_Some (append_to v0 []) ->
  (forall c, issued scripts c ->
     (exists l, appends c k t l /\ is_Some (append_to v0 l)) \/ ~ may_write (c_req c) k) ->
  sys_run sched (begin scripts s0) = Some x ->
  exists vn, st_keys x.2 !! k = Some vn /\
  (forall a c l r, call_at scripts a = Some c -> log_call c k t l -> returned x a r ->
     exists u v, responds (c_env c) (c_res c) v r /\ grown v0 u /\ append_to u l = Some v /\ grown v vn) /\
  (forall a b c c' l l' r r', call_at scripts a = Some c -> call_at scripts b = Some c' ->
     log_call c k t l -> log_call c' k t l' -> returned x a r -> returned x b r' ->
     before scripts s0 sched a b ->
     exists u v u' w, responds (c_env c) (c_res c) v r /\ responds (c_env c') (c_res c') w r' /\
       grown v0 u /\ append_to u l = Some v /\ grown v u' /\ append_to u' l' = Some w /\ grown w vn).
Proof. exact c118_log. Qed.
Print Assumptions C118_log.

Example C118_log_nonvacuous :
  room_for_all log_scripts example_store /\ envs_ok log_scripts /\ ordinary (lit "l") /\
  st_keys example_store !! lit "l" = Some (VList [lit "x"]) /\
  (forall c, issued log_scripts c ->
     (exists l, appends c (lit "l") KTList l /\ is_Some (append_to (VList [lit "x"]) l)) \/
     ~ may_write (c_req c) (lit "l")) /\
  match sys_run (replicate 6 1 ++ replicate 3 0 ++ replicate 4 1 ++ replicate 5 0 ++ [1; 1])%nat
          (begin log_scripts example_store) with
  | Some x =>
      map cl_done x.1 = [[COk (resp_frame dbg (RValue (VList [lit "x"; lit "c"; lit "a"; lit "b"])));
          COk (resp_frame dbg (RValue (VList [lit "x"; lit "c"; lit "a"; lit "b"])))];
        [COk (resp_frame dbg (RValue (VList [lit "x"])));
         COk (resp_frame dbg (RValue (VList [lit "x"; lit "c"])));
         COk (resp_frame dbg (RValue (VList [lit "x"; lit "c"; lit "a"; lit "b"])))]]
  | None => False
  end.
Proof.
  split_and!; [roomy_all|each_call; apply env_std_ok|apply ordinary_dec; vm_compute; reflexivity|reflexivity| |].
  - each_call.
    1: left; exists [lit "a"; lit "b"]; split; [asked|by eexists].
    3: left; exists [lit "c"]; split; [asked|by eexists].
    all: right; eapply not_may_write; [asked|vm_compute; reflexivity].
  - vm_compute. reflexivity.
Qed.

(** C118 for counters, with the locks of the map. *)
Theorem C118_counter_locked :
  forall sh k scripts s0 z0 D lsched x,
  room_for_all scripts s0 -> envs_ok scripts -> ordinary k -> st_keys s0 !! k = Some (VInteger z0) ->
  (forall c, issued scripts c -> (exists d, adds_int c k d) \/ ~ may_write (c_req c) k) ->
  (forall c d, issued scripts c -> adds_int c k d -> (0 <= d <= D)%Z) -> (0 <= D)%Z ->
  i64_range z0 -> i64_range D -> i64_range (z0 + D * Z.of_nat (length (concat scripts))) ->
  lsys_run sh lsched (lbegin scripts s0) = Some x ->
  exists zn, (unlocked sh x k -> st_keys x.2 !! k = Some (VInteger zn)) /\
  (zn <= z0 + D * Z.of_nat (length (concat scripts)))%Z /\
  (forall a c d r, call_at scripts a = Some c -> counter_call c k d -> lreturned x a r ->
     exists z, responds (c_env c) (c_res c) (VInteger z) r /\ (z0 + d <= z <= zn)%Z) /\
  (forall a b c c' d d' r r', call_at scripts a = Some c -> call_at scripts b = Some c' ->
     counter_call c k d -> counter_call c' k d' -> lreturned x a r -> lreturned x b r' ->
     lbefore sh scripts s0 lsched a b ->
     exists z z', responds (c_env c) (c_res c) (VInteger z) r /\
       responds (c_env c') (c_res c') (VInteger z') r' /\ (z0 + d <= z /\ z + d' <= z' <= zn)%Z).
Proof. exact c118_counter_locked. Qed.
Print Assumptions C118_counter_locked.

(** The clients of [C118_counter_nonvacuous], with locks. *)
Example C118_counter_locked_nonvacuous :
  match lsys_run one_shard (map (fun i => (i, []))
    [0; 0; 0; 1; 2; 0; 0; 1; 0; 1; 0; 1; 0; 1; 2; 0; 1; 2; 0; 1; 2; 0; 1; 2; 0; 1; 2; 0; 1; 2; 0; 1; 2; 0; 1; 2;
     0; 1; 2; 0; 1; 2; 1; 2; 1; 2; 1; 2; 2; 2]%nat)
    (lbegin counter_scripts example_store) with
  | Some x =>
      map lc_done x.1 =
       [[COk (resp_frame (env_std false) (RValue (VInteger 6)));
         COk (resp_frame (env_std false) (RValue (VInteger 9)))];
        [COk (resp_frame (env_std false) (RValue (VInteger 9)));
         COk (resp_frame (env_std false) (RValue (VInteger 9)))];
        [COk (resp_frame (env_std false) (RValue (VInteger 9)));
         COk (resp_frame (env_std false) (RValue (VList [lit "x"])))]] /\
      st_keys x.2 !! lit "n" = Some (VInteger 9)
  | None => False
  end.
Proof. vm_compute. split_and!; reflexivity. Qed.

(** C118 for values that are appended to, with the locks of the map. *)
Theorem C118_log_locked :
  forall sh k scripts s0 t v0 lsched x,
  room_for_all scripts s0 -> envs_ok scripts -> ordinary k -> st_keys s0 !! k = Some v0 -> kind v0 = t ->
  is_Some (append_to v0 []) ->
  (forall c, issued scripts c ->
     (exists l, appends c k t l /\ is_Some (append_to v0 l)) \/ ~ may_write (c_req c) k) ->
  lsys_run sh lsched (lbegin scripts s0) = Some x ->
  exists vn, (unlocked sh x k -> st_keys x.2 !! k = Some vn) /\
  (forall a c l r, call_at scripts a = Some c -> log_call c k t l -> lreturned x a r ->
     exists u v, responds (c_env c) (c_res c) v r /\ grown v0 u /\ append_to u l = Some v /\ grown v vn) /\
  (forall a b c c' l l' r r', call_at scripts a = Some c -> call_at scripts b = Some c' ->
     log_call c k t l -> log_call c' k t l' -> lreturned x a r -> lreturned x b r' ->
     lbefore sh scripts s0 lsched a b ->
     exists u v u' w, responds (c_env c) (c_res c) v r /\ responds (c_env c') (c_res c') w r' /\
       grown v0 u /\ append_to u l = Some v /\ grown v u' /\ append_to u' l' = Some w /\ grown w vn).
Proof. exact c118_log_locked. Qed.
Print Assumptions C118_log_locked.

(** The clients of [C118_log_nonvacuous], with locks. *)
Example C118_log_locked_nonvacuous :
  match lsys_run one_shard (map (fun i => (i, []))
    [0; 0; 0; 1; 0; 0; 1; 0; 1; 0; 1; 0; 1; 0; 1; 0; 1; 0; 1; 0; 1; 0; 1; 0; 1; 0; 1; 0; 1; 0; 1; 1; 1; 1; 1; 1;
     1; 1; 1; 1; 1; 1]%nat)
    (lbegin log_scripts example_store) with
  | Some x =>
      map lc_done x.1 =
       [[COk (resp_frame (env_std false) (RValue (VList [lit "x"; lit "a"; lit "b"])));
         COk (resp_frame (env_std false) (RValue (VList [lit "x"; lit "a"; lit "b"])))];
        [COk (resp_frame (env_std false) (RValue (VList [lit "x"; lit "a"; lit "b"])));
         COk (resp_frame (env_std false) (RValue (VList [lit "x"; lit "a"; lit "b"; lit "c"])));
         COk (resp_frame (env_std false) (RValue (VList [lit "x"; lit "a"; lit "b"; lit "c"])))]] /\
      st_keys x.2 !! lit "n" = Some (VInteger 5)
  | None => False
  end.
Proof. vm_compute. split_and!; reflexivity. Qed.

(** C118 for tasks that share a memory client and add to a counter and read it: every call returns a value, at least
    the initial one and what it added, at most what is there once nobody holds the lock of the key; and a call
    that is made after another has returned returns at least what that returned and what it added itself. *)
Theorem C118_tasks_counter :
  forall sh tasks k s0 z0 D sched x,
  tasks_fit tasks s0 -> sendable tasks -> ordinary k -> k <> [] -> st_keys s0 !! k = Some (VInteger z0) ->
  (forall e c, made_by_one tasks e c -> (exists d, adds_amount c k d) \/ ~ changes c k) ->
  (forall e c d, made_by_one tasks e c -> adds_amount c k d -> (0 <= d <= D)%Z) -> (0 <= D)%Z ->
  i64_range z0 -> i64_range D -> i64_range (z0 + D * Z.of_nat (length (concat tasks))) ->
  at_work sh tasks s0 sched = Some x ->
  exists zn, (unlocked sh x k -> st_keys x.2 !! k = Some (VInteger zn)) /\
  (forall a e c d r, task_call tasks a = Some (e, c) -> counter_use c k d -> got tasks x a r ->
     exists z, r = ROk (RpValue (VInteger z)) /\ (z0 + d <= z <= zn)%Z) /\
  (forall a b e e' c c' d d' r r', task_call tasks a = Some (e, c) -> task_call tasks b = Some (e', c') ->
     counter_use c k d -> counter_use c' k d' -> got tasks x a r -> got tasks x b r' ->
     earlier sh tasks s0 sched a b ->
     exists z z', r = ROk (RpValue (VInteger z)) /\ r' = ROk (RpValue (VInteger z')) /\
       (z0 + d <= z /\ z + d' <= z' <= zn)%Z).
Proof. exact c118_tasks_counter. Qed.
Print Assumptions C118_tasks_counter.

Example C118_tasks_counter_nonvacuous :
  tasks_fit counter_tasks example_store /\ sendable counter_tasks /\
  (forall e c, made_by_one counter_tasks e c -> exists d, counter_use c (lit "n") d) /\
  (forall e c, made_by_one counter_tasks e c -> (exists d, adds_amount c (lit "n") d) \/ ~ changes c (lit "n")) /\
  (forall e c, made_by_one counter_tasks e c -> forall d, adds_amount c (lit "n") d -> (0 <= d <= 3)%Z) /\
  match at_work one_shard counter_tasks example_store counter_sched with
  | Some x =>
      zip_with (fun h cl => results h (lc_done cl)) counter_tasks x.1 =
        [[ROk (RpValue (VInteger 6)); ROk (RpValue (VInteger 9))];
         [ROk (RpValue (VInteger 9)); ROk (RpValue (VInteger 9))];
         [ROk (RpValue (VInteger 9)); ROk (RpValue (VInteger 10))]] /\
      st_keys x.2 !! lit "n" = Some (VInteger 10)
  | None => False
  end.
Proof.
  split_and!.
  - roomy_all.
  - each_task_call; (split; [apply env_std_ok|vm_compute; discriminate]).
  - each_task_call.
    + exists 1%Z. right. left. split; [by left|done].
    + exists 0%Z. left. split; [by left|done].
    + exists 3%Z. right. right. by left.
    + exists 0%Z. left. split; [by right|done].
    + exists 0%Z. left. split; [by left|done].
    + exists 1%Z. right. left. split; [by right; right|done].
  - each_task_call.
    + left. exists 1%Z. left. split; [by left|done].
    + right. by intros [].
    + left. exists 3%Z. right. by left.
    + right. by intros [].
    + right. by intros [].
    + left. exists 1%Z. left. split; [by right; right|done].
  - each_task_call; intros d [[[E|[E|E]] ->]|[E|E]]; try discriminate E; try lia. injection E as <-. lia.
  - vm_compute. split_and!; reflexivity.
Qed.

(** C118 for tasks that share a memory client and append to a value and read it: every call that is sent returns the
    initial value, possibly something behind it and then what it appended itself; and a call that is made
    after another has returned returns what that returned, possibly something behind it and then what it
    appended itself. *)
Theorem C118_tasks_log :
  forall sh tasks k s0 v0 sched x,
  tasks_fit tasks s0 -> sendable tasks -> ordinary k -> k <> [] -> st_keys s0 !! k = Some v0 -> appendable v0 ->
  (forall e c, made_by_one tasks e c ->
     (exists v, appends_value c k v /\ kind v = kind v0 /\ value_wf v) \/ ~ changes c k) ->
  at_work sh tasks s0 sched = Some x ->
  exists vn, (unlocked sh x k -> st_keys x.2 !! k = Some vn) /\
  (forall a e c r, task_call tasks a = Some (e, c) -> log_user c k (kind v0) -> refused c = None -> got tasks x a r ->
     exists u v, grown v0 u /\ log_use c k (kind v0) u v /\ grown v vn /\ (sound v -> r = ROk (RpValue v))) /\
  (forall a b e e' c c' r r', task_call tasks a = Some (e, c) -> task_call tasks b = Some (e', c') ->
     log_user c k (kind v0) -> log_user c' k (kind v0) -> refused c = None -> refused c' = None ->
     got tasks x a r -> got tasks x b r' -> earlier sh tasks s0 sched a b ->
     exists u v u' v', grown v0 u /\ log_use c k (kind v0) u v /\ grown v u' /\
       log_use c' k (kind v0) u' v' /\ grown v' vn /\
       (sound v -> r = ROk (RpValue v)) /\ (sound v' -> r' = ROk (RpValue v'))).
Proof. exact c118_tasks_log. Qed.
Print Assumptions C118_tasks_log.

Example C118_tasks_log_nonvacuous :
  tasks_fit log_tasks example_store /\ sendable log_tasks /\
  (forall e c, made_by_one log_tasks e c -> log_user c (lit "l") KTList /\ refused c = None) /\
  (forall e c, made_by_one log_tasks e c ->
     (exists v, appends_value c (lit "l") v /\ kind v = KTList /\ value_wf v) \/ ~ changes c (lit "l")) /\
  match at_work one_shard log_tasks example_store log_sched with
  | Some x =>
      zip_with (fun h cl => results h (lc_done cl)) log_tasks x.1 =
        [[ROk (RpValue (VList [lit "x"; lit "a"; lit "b"]));
          ROk (RpValue (VList [lit "x"; lit "a"; lit "b"; lit "c"]))];
         [ROk (RpValue (VList [lit "x"]));
          ROk (RpValue (VList [lit "x"; lit "a"; lit "b"; lit "c"]));
          ROk (RpValue (VList [lit "x"; lit "a"; lit "b"; lit "c"]))]]
  | None => False
  end.
Proof.
  split_and!.
  - roomy_all.
  - each_task_call; (split; [apply env_std_ok|vm_compute; discriminate]).
  - each_task_call; (split; [|reflexivity]);
      first [by left; left|by left; right|by right; eexists; left|by right; eexists; right].
  - each_task_call.
    + left. eexists. split; [by left|]. by vm_compute.
    + right. by intros [].
    + right. by intros [].
    + left. eexists. split; [by right|]. by vm_compute.
    + right. by intros [].
  - vm_compute. reflexivity.
Qed.
