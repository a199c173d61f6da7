(** What a call that reads is told was so at a moment while it ran: C123.
    The vocabulary is in [SeenSpec]; clients that issue one call after another, with the map's locks, in
    [LockScripts]; tasks that share a memory client in [MemTasks]. *)
From Coq Require Import String.
From Verif Require Import Locks LockSpec LockScripts LockScriptSpec.
From Verif Require Import Bytes BytesFacts Utf8 Float64 Value CommandId Request RequestSpec Response RespContext WireSpec
  EngineSpec Metrics Prog Commands HistorySpec EngineProps ConcSpec Scripts LinSpec KeyLinSpec MomentSpec
  Client ClientSpec ClientProps MemTasks MemTaskSpec SeenSpec SeenFacts.
From stdpp Require Import gmap list.
From Coq Require Import NArith ZArith Lia.

(** C123: whatever the other clients do, with the map's locks and values changing bit by bit, Get, Type, Length
    and Keys return what they would return if they were made alone at a moment between their call and their
    return, when nobody was writing to the key; or, Length and Keys without a type, that the type is different,
    and then the key was there with another type, or not there, at an earlier look; or what they return on any
    data, as for a reserved key. *)
Theorem C123_one :
  forall sh scripts s0 sched x b c k r,
  room_for_all scripts s0 -> lsys_run sh sched (lbegin scripts s0) = Some x -> call_at scripts b = Some c ->
  reads_one (r_command (c_req c)) -> arg (c_req c) 0 = Some k -> lreturned x b r ->
  told_one sh scripts s0 sched b c k r.
Proof. exact c123_one. Qed.
Print Assumptions C123_one.

(** C123: Exists and Is return true only if each key was there, with the type, at a moment while they ran, and
    false only if one of them was not. *)
Theorem C123_question :
  forall sh scripts s0 sched x b c t ks r,
  room_for_all scripts s0 -> lsys_run sh sched (lbegin scripts s0) = Some x -> call_at scripts b = Some c ->
  question (c_req c) t ks -> ks <> [] -> lreturned x b r ->
  (responds (c_env c) (c_res c) (VBoolean true) r /\
   forall k, k ∈ ks -> exists y, seen sh scripts s0 sched b k y /\ there t k y.2) \/
  (responds (c_env c) (c_res c) (VBoolean false) r /\
   exists k y, k ∈ ks /\ seen sh scripts s0 sched b k y /\ ~ there t k y.2).
Proof. exact c123_question. Qed.
Print Assumptions C123_question.

(** One client measures a list, another deletes it and sets an integer in the middle of that; a third asks
    for two keys, one of which is not there for a while. *)
Definition a_store : store := store_of [(lit "k", VList [lit "x"]); (lit "n", VInteger 5)].
Definition some_scripts : list (list call) :=
  [[ask CLength None [lit "k"]; ask CLength (Some KTList) [lit "k"]; ask CGet None [lit "k"]];
   [ask CDelete None [lit "k"]; ask CSet (Some KTInteger) [lit "k"; i64_enc 7]];
   [ask CExists None [lit "k"; lit "n"]]].
Definition one_shard : shards := Shards (fun _ => 0%N) (fun _ => 0%N).
Definition some_schedule : list (nat * list value) :=
  map (fun i => (i, [])) (replicate 4 0 ++ replicate 4 2 ++ replicate 26 1 ++ replicate 7 2 ++ replicate 23 0)%nat.
Example C123_nonvacuous :
  room_for_all some_scripts a_store /\
  reads_one CLength /\ arg (c_req (ask CLength None [lit "k"])) 0 = Some (lit "k") /\
  question (c_req (ask CExists None [lit "k"; lit "n"])) None [lit "k"; lit "n"] /\
  match lsys_run one_shard some_schedule (lbegin some_scripts a_store) with
  | Some x => map lc_done x.1 =
      [[CErr EKeyTypeDifferent []; CErr EKeyTypeDifferent []; COk (write_int [] 7)];
       [cres_of (write_bytes (env_std true) [] (lit "k")); COk (write_int [] 7)]; [COk (write_bool [] true)]]
  | None => False
  end.
Proof.
  split_and!.
  - intros m. by destruct m.
  - unfold reads_one. auto.
  - reflexivity.
  - apply a_request_asks; [reflexivity|vm_compute; discriminate|vm_compute; reflexivity].
  - vm_compute. reflexivity.
Qed.

(** C123: and so with any number of tasks sharing one memory client: what get, key_type, length and keys
    return is what the call would return if it were made alone at a moment while it ran; or that the type is
    different, and then it was; or what it returns on any data. *)
Theorem C123_tasks :
  forall sh tasks s0 sched x a e c k r,
  sendable tasks -> tasks_fit tasks s0 -> at_work sh tasks s0 sched = Some x ->
  task_call tasks a = Some (e, c) -> reads_one_key c k -> k <> [] -> got tasks x a r ->
  (exists y, task_seen sh tasks s0 sched a k y /\ r = (mem_call e (data_of y) c).2) \/
  ((c = KLength k None \/ c = KKeys k) /\ r = RErr (CERunningCommand EKeyTypeDifferent) /\
   exists y z v, task_seen sh tasks s0 sched a k y /\ task_seen sh tasks s0 sched a k z /\
     st_keys z.2 !! k = Some v /\ other_type (st_keys y.2 !! k) v) \/
  (forall s, room s -> r = (mem_call e s c).2).
Proof. exact c123_tasks. Qed.
Print Assumptions C123_tasks.

(** C123: exists and is return true only if each key was there at a moment while they ran, and false only if
    one was not.  They cannot return anything else. *)
Theorem C123_tasks_question :
  forall sh tasks s0 sched x a e c t ks r,
  sendable tasks -> tasks_fit tasks s0 -> at_work sh tasks s0 sched = Some x ->
  task_call tasks a = Some (e, c) -> asks_whether c t ks -> ks <> [] -> [] ∉ ks -> got tasks x a r ->
  (r = ROk (RpBool true) /\ forall k, k ∈ ks -> exists y, task_seen sh tasks s0 sched a k y /\ there t k y.2) \/
  (r = ROk (RpBool false) /\ exists k y, k ∈ ks /\ task_seen sh tasks s0 sched a k y /\ ~ there t k y.2).
Proof. exact c123_tasks_question. Qed.
Print Assumptions C123_tasks_question.

(** C123: a task gets a value that the key had at a moment while it was getting it, or is told that it is not
    there, which it was not at such a moment. *)
Theorem C123_get :
  forall sh tasks s0 sched x a e c k t r,
  sendable tasks -> tasks_fit tasks s0 -> at_work sh tasks s0 sched = Some x ->
  task_call tasks a = Some (e, c) -> c = KGet k \/ c = KGetTyped k t -> ordinary k -> got tasks x a r ->
  exists y, task_seen sh tasks s0 sched a k y /\
  match st_keys y.2 !! k with
  | Some v => sound v -> r = if wrong_kind c v then RPanic else ROk (RpValue v)
  | None => r = RErr (CERunningCommand EKeyNonexistent)
  end.
Proof. exact c123_get. Qed.
Print Assumptions C123_get.

(** The same by tasks. *)
Definition some_tasks : list task :=
  [[(env_std true, KLength (lit "k") None); (env_std true, KGet (lit "k")); (env_std true, KGetTyped (lit "k") KTList)];
   [(env_std true, KDelete (lit "k")); (env_std true, KSet (lit "k") (VInteger 7))];
   [(env_std true, KExists [lit "k"; lit "n"])]].
Example C123_tasks_nonvacuous :
  sendable some_tasks /\ tasks_fit some_tasks a_store /\ ordinary (lit "k") /\ sound (VInteger 7) /\
  match at_work one_shard some_tasks a_store
    (map (fun i => (i, [])) (replicate 4 0 ++ replicate 4 2 ++ replicate 26 1 ++ replicate 7 2 ++ replicate 23 0)%nat) with
  | Some x => zip_with (fun h cl => results h (lc_done cl)) some_tasks x.1 =
      [[RErr (CERunningCommand EKeyTypeDifferent); ROk (RpValue (VInteger 7)); RPanic];
       [ROk (RpBytes (lit "k")); ROk (RpValue (VInteger 7))]; [ROk (RpBool true)]]
  | None => False
  end.
Proof.
  split_and!.
  - intros e c [[i j] H]. unfold task_call in H. cbn [fst snd] in H.
    destruct i as [|[|[|i]]]; cbn in H; try done; destruct j as [|[|[|j]]]; cbn in H; try done; injection H as <- <-;
      (split; [apply env_std_ok|vm_compute; discriminate]).
  - intros m. by destruct m.
  - split; [done|]. by intros [r [=]].
  - by apply ClientFacts.sound_int.
  - vm_compute. reflexivity.
Qed.
