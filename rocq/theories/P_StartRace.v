(** Clients that add to a key that is not there yet: C120.  The vocabulary is in [StartRaceSpec] and, for tasks that
    share a memory client, in [MemStartSpec]; clients that issue one call after another are in [Scripts], with the
    map's locks in [LockScripts], and tasks in [MemTasks]. *)
From Coq Require Import String.
From Verif Require Import Locks LockSpec LockScripts LockScriptSpec.
From Verif Require Import Bytes BytesFacts Utf8 Float64 Value CommandId
  Request Response RespContext Metrics Prog Commands EngineSpec WireSpec RequestSpec
  HistorySpec EngineProps ConcSpec ConcFacts ConcProps Scripts LinSpec LinFacts KeyLinSpec Client ClientSpec ClientFacts
  ClientProps MemTasks MemTaskSpec MemTaskFacts MemAppendSpec SetRaceSpec ForwardSpec
  MemForwardSpec MemForward StartRaceSpec StartRace MemStartSpec MemStart.
From stdpp Require Import gmap list.
From Coq Require Import NArith ZArith Lia.

Ltac asked := apply a_request_asks; [reflexivity|vm_compute; discriminate|vm_compute; reflexivity].
Ltac each_call := let c := fresh "c" in let Hc := fresh "Hc" in
  intros c Hc%issued_concat; cbn [concat app] in Hc;
  repeat (apply elem_of_cons in Hc as [->|Hc]); [..|by apply elem_of_nil in Hc].
Ltac each_task_call := let i := fresh "i" in let j := fresh "j" in let H := fresh "H" in
  intros ? ? [[i j] H]; unfold task_call in H; cbn [fst snd] in H;
  destruct i as [|[|[|i]]]; cbn in H; try done; try (by destruct i);
  destruct j as [|[|[|[|j]]]]; cbn in H; try done; injection H as <- <-.

(** The state, the clients and the tasks of the examples. *)
Definition one_shard : shards := Shards (fun _ => 0%N) (fun _ => 0%N).
Notation dbg := (env_std true) (only parsing).
Notation rel := (env_std false) (only parsing).
Definition example_store : store := store_of [(lit "l", VList [lit "x"])].
Ltac roomy := let m := fresh "m" in intros m; unfold example_store, store_of, count; cbn [st_counters];
  rewrite lookup_empty; vm_compute; reflexivity.
Notation incr k := (ask CIncrement None [lit k]) (only parsing).
Notation incr_by k z := (ask CIncrementBy (Some KTInteger) [lit k; i64_enc z]) (only parsing).
Notation get k := (ask CGet None [lit k]) (only parsing).
Notation push k l := (ask CAppend (Some KTList) (lit k :: l)) (only parsing).
Notation counter_scripts := [[incr "n"]; [incr_by "n" 5; incr_by "n" (-2)]; [get "l"; incr "n"]] (only parsing).
Notation log_scripts := [[push "m" [lit "a"]]; [push "m" [lit "b"; lit "c"]; push "m" [lit "d"]];
  [get "l"; push "m" [lit "e"]]] (only parsing).
Definition start_sched : list nat :=
  [0; 0; 1; 1; 1; 1; 2; 2; 2; 2; 0; 1; 2; 0; 1; 2; 0; 1; 2; 0; 1; 2; 1; 1]%nat.
Definition counter_tasks : list task :=
  [[(dbg, KIncrement (lit "n") None)];
   [(dbg, KIncrementBy (lit "n") (VInteger 5)); (dbg, KGet []); (dbg, KIncrementInt (lit "n") (Some (-2)%Z))];
   [(dbg, KGet (lit "l")); (dbg, KIncrementInt (lit "n") None)]].
Definition counter_sched : list (nat * list value) := map (fun i => (i, [VInteger 99]))
  [0; 0; 0; 0; 1; 1; 1; 1; 1; 1; 1; 1; 1; 1; 1; 1; 1; 1; 0; 1; 2; 0; 1; 0; 1; 2; 2; 2; 0; 2; 0; 2; 0;
   2; 0; 2; 0; 1; 2; 0; 1; 0; 1; 0; 1; 0; 1; 2; 1; 2; 1; 2; 1; 2; 1; 2; 2; 2; 2; 2]%nat.
Definition log_tasks : list task :=
  [[(dbg, KAppend (lit "m") (VList [lit "a"]))];
   [(dbg, KAppendTyped (lit "m") (VList [lit "b"; lit "c"]))];
   [(dbg, KGet (lit "l")); (dbg, KAppend (lit "m") (VList [lit "e"]))]].
Definition log_sched : list (nat * list value) := map (fun i => (i, [VInteger 99]))
  [0; 0; 0; 0; 1; 1; 1; 1; 1; 1; 1; 1; 1; 1; 1; 1; 1; 1; 0; 1; 2; 0; 1; 0; 2; 2; 2; 0; 2; 0; 2; 0; 2;
   0; 2; 0; 2; 0; 2; 0; 2; 0; 2; 0; 2; 2; 2; 2; 2; 2]%nat.

(** C120: at the beginning nothing is at the key, and clients add to it, at most [D] up or down at a time.  At any
    moment it holds the sum of the amounts of some of the calls, put in an order; a call of these that has
    returned was told the sum up to itself; and a call that has returned and is not among them was undone by a call
    that began before any call that adds was over, and that was not over before the lost one began. *)
Theorem C120_counter :
  forall k scripts s0 D sched x,
  room_for_all scripts s0 -> envs_ok scripts -> ordinary k -> st_keys s0 !! k = None ->
  (forall c, issued scripts c -> (exists d, adds_int c k d) \/ ~ may_write (c_req c) k) ->
  (forall c d, issued scripts c -> adds_int c k d -> - D <= d <= D)%Z ->
  i64_range (D * Z.of_nat (length (concat scripts))) ->
  sys_run sched (begin scripts s0) = Some x ->
  exists out ds, made_of_adds (adds_there scripts (fun c => adds_int c k)) summed (before scripts s0 sched)
    (has_returned x) (was_told scripts x) (st_keys x.2 !! k) out ds.
Proof. exact c120_counter. Qed.
Print Assumptions C120_counter.

(** The call that adds 5 returns 5, and is undone by the first client, which had found nothing at the key. *)
Example C120_counter_nonvacuous :
  room_for_all counter_scripts example_store /\ envs_ok counter_scripts /\ ordinary (lit "n") /\
  st_keys example_store !! lit "n" = None /\
  (forall c, issued counter_scripts c ->
     ((exists d, adds_int c (lit "n") d) \/ ~ may_write (c_req c) (lit "n")) /\
     forall d, adds_int c (lit "n") d -> (- (5) <= d <= 5)%Z) /\
  i64_range (5 * Z.of_nat (length (concat counter_scripts))) /\
  match sys_run start_sched (begin counter_scripts example_store) with
  | Some x =>
      map cl_done x.1 = [[COk (resp_frame rel (RValue (VInteger 1)))];
        [COk (resp_frame rel (RValue (VInteger 5))); COk (resp_frame rel (RValue (VInteger 0)))];
        [COk (resp_frame rel (RValue (VList [lit "x"]))); COk (resp_frame rel (RValue (VInteger 2)))]] /\
      st_keys x.2 !! lit "n" = Some (VInteger 0)
  | None => False
  end.
Proof.
  split_and!; [roomy|each_call; apply env_std_ok|apply ordinary_dec; vm_compute; reflexivity|reflexivity| | |].
  - assert (Hget : forall c kt k, asks (c_req c) CGet kt [k] ->
      ((exists d, adds_int c (lit "n") d) \/ ~ may_write (c_req c) (lit "n")) /\
      forall d, adds_int c (lit "n") d -> (- (5) <= d <= 5)%Z).
    { intros c kt k (Hq & _). split; [right; intros [Hw _]; by rewrite Hq in Hw|].
      intros d (cmd & kt' & l & (Hq' & _) & Hch). rewrite Hq in Hq'. subst cmd.
      by destruct Hch as [(? & _)|[(? & _)|(? & ? & ? & _ & _ & [[? _]|[? _]])]]. }
    assert (Hadd : forall c d, adds_int c (lit "n") d -> (- (5) <= d <= 5)%Z ->
      ((exists d, adds_int c (lit "n") d) \/ ~ may_write (c_req c) (lit "n")) /\
      forall d, adds_int c (lit "n") d -> (- (5) <= d <= 5)%Z).
    { intros c d Ha Hd. split; [left; by exists d|]. intros d' Ha'. by rewrite (adds_int_fun _ _ _ _ Ha' Ha). }
    assert (Hone : adds_int (incr "n") (lit "n") 1).
    { exists CIncrement, None, [lit "n"]. split; [asked|]. left. split_and!; [done|done|by exists []|done]. }
    each_call.
    + apply (Hadd _ 1%Z); [exact Hone|lia].
    + apply (Hadd _ 5%Z); [|lia]. exists CIncrementBy, (Some KTInteger), [lit "n"; i64_enc 5]. split; [asked|].
      right. right. exists 5%Z, [], [].
      split_and!; [by rewrite app_nil_r|vm_compute; split; [discriminate|reflexivity]|by left].
    + apply (Hadd _ (-2)%Z); [|lia]. exists CIncrementBy, (Some KTInteger), [lit "n"; i64_enc (-2)]. split; [asked|].
      right. right. exists (-2)%Z, [], [].
      split_and!; [by rewrite app_nil_r|vm_compute; split; [discriminate|reflexivity]|by left].
    + eapply Hget; asked.
    + apply (Hadd _ 1%Z); [exact Hone|lia].
  - vm_compute. split; [discriminate|reflexivity].
  - vm_compute. split_and!; reflexivity.
Qed.

(** C120 for appends to bytes, a list or a string that is not there yet: the same, the value being made of the items
    of some of the calls. *)
Theorem C120_log :
  forall k scripts s0 t sched x,
  room_for_all scripts s0 -> envs_ok scripts -> ordinary k -> st_keys s0 !! k = None ->
  t = KTBytes \/ t = KTList \/ t = KTString ->
  (forall c, issued scripts c ->
     (exists l, appends c k t l /\ is_Some (append_to (blank t) l)) \/ ~ may_write (c_req c) k) ->
  sys_run sched (begin scripts s0) = Some x ->
  exists out ls, made_of_adds (adds_there scripts (fun c => appends c k t)) (strung t) (before scripts s0 sched)
    (has_returned x) (was_told scripts x) (st_keys x.2 !! k) out ls.
Proof. exact c120_log. Qed.
Print Assumptions C120_log.

Example C120_log_nonvacuous :
  room_for_all log_scripts example_store /\ envs_ok log_scripts /\ ordinary (lit "m") /\
  st_keys example_store !! lit "m" = None /\
  (forall c, issued log_scripts c ->
     (exists l, appends c (lit "m") KTList l /\ is_Some (append_to (blank KTList) l)) \/
     ~ may_write (c_req c) (lit "m")) /\
  match sys_run start_sched (begin log_scripts example_store) with
  | Some x =>
      map cl_done x.1 = [[COk (resp_frame rel (RValue (VList [lit "a"])))];
        [COk (resp_frame rel (RValue (VList [lit "b"; lit "c"])));
         COk (resp_frame rel (RValue (VList [lit "a"; lit "e"; lit "d"])))];
        [COk (resp_frame rel (RValue (VList [lit "x"])));
         COk (resp_frame rel (RValue (VList [lit "a"; lit "e"])))]]
  | None => False
  end.
Proof.
  split_and!; [roomy|each_call; apply env_std_ok|apply ordinary_dec; vm_compute; reflexivity|reflexivity| |].
  - each_call.
    + left. exists [lit "a"]. split; [asked|by eexists].
    + left. exists [lit "b"; lit "c"]. split; [asked|by eexists].
    + left. exists [lit "d"]. split; [asked|by eexists].
    + right. eapply not_may_write; [asked|vm_compute; reflexivity].
    + left. exists [lit "e"]. split; [asked|by eexists].
  - vm_compute. reflexivity.
Qed.

(** C120: what [made_of_adds], the conclusion of the theorems of this file, says of a call that began when every
    call that had begun before any was over had returned: it is not lost. *)
Theorem C120_kept :
  forall {A} (adds : nat * nat -> A -> Prop) total bef over says now out ds a d,
  made_of_adds adds total bef over says now out ds -> adds a d -> over a ->
  (forall b d', adds b d' -> b <> a -> (forall a' e, adds a' e -> ~ bef a' b) -> bef b a) ->
  a ∈ out /\ now = Some (total ds).
Proof. exact @c120_kept. Qed.
Print Assumptions C120_kept.

(** A call (0, 0) adds 5, and when it has returned, a call (1, 0) adds 1: this one is kept. *)
Example C120_kept_nonvacuous :
  let adds := fun (a : nat * nat) (d : Z) => (a = (0, 0) /\ d = 5%Z) \/ (a = (1, 0) /\ d = 1%Z) in
  let bef := fun a b : nat * nat => (a.1 < b.1)%nat in
  let any := fun a : nat * nat => (a.1 <= 1)%nat in
  let told := fun (a : nat * nat) v => (a = (0, 0) /\ v = VInteger 5) \/ (a = (1, 0) /\ v = VInteger 6) in
  made_of_adds adds summed bef any told (Some (VInteger 6)) [(0, 0); (1, 0)] [5; 1]%Z /\
  adds (1, 0)%nat 1%Z /\ any (1, 0)%nat /\
  (forall b d, adds b d -> b <> (1, 0)%nat -> (forall a e, adds a e -> ~ bef a b) -> bef b (1, 0)%nat).
Proof.
  cbn zeta. split_and!; [|by right|cbn; lia|].
  - split_and!.
    + apply NoDup_cons. split; [set_solver|apply NoDup_singleton].
    + constructor; [by left|constructor; [by right|constructor]].
    + by left.
    + intros [|[|i]] a; cbn; intros [= <-] _; auto.
    + intros [|[|i]] [|[|j]] a b; cbn; intros [= <-] [= <-]; cbn; lia.
    + intros a d [[-> ->]|[-> ->]] _.
      * exists [], [5%Z]. split_and!; [apply NoDup_singleton| |by left]. constructor; [by left|constructor].
      * exists [(0, 0)%nat], [5%Z; 1%Z]. split_and!; [| |by right].
        -- apply NoDup_cons. split; [set_solver|apply NoDup_singleton].
        -- constructor; [by left|constructor; [by right|constructor]].
    + intros a d [[-> ->]|[-> ->]] _ Hn; set_solver.
  - intros b d [[-> ->]|[-> ->]] Hb _; [cbn; lia|done].
Qed.

(** C120 for counters, with the locks of the map. *)
Theorem C120_counter_locked :
  forall sh k scripts s0 D lsched x,
  room_for_all scripts s0 -> envs_ok scripts -> ordinary k -> st_keys s0 !! k = None ->
  (forall c, issued scripts c -> (exists d, adds_int c k d) \/ ~ may_write (c_req c) k) ->
  (forall c d, issued scripts c -> adds_int c k d -> - D <= d <= D)%Z ->
  i64_range (D * Z.of_nat (length (concat scripts))) ->
  lsys_run sh lsched (lbegin scripts s0) = Some x ->
  exists now out ds, (unlocked sh x k -> st_keys x.2 !! k = now) /\
    made_of_adds (adds_there scripts (fun c => adds_int c k)) summed (lbefore sh scripts s0 lsched)
      (lhas_returned x) (lwas_told scripts x) now out ds.
Proof. exact c120_counter_locked. Qed.
Print Assumptions C120_counter_locked.

(** The clients of [C120_counter_nonvacuous], with locks. *)
Example C120_counter_locked_nonvacuous :
  match lsys_run one_shard (map (fun i => (i, []))
    [0; 0; 0; 1; 2; 0; 1; 1; 1; 2; 2; 2; 0; 2; 0; 2; 0; 1; 2; 1; 2; 1; 2; 0; 0; 0; 0; 1; 0; 1; 0; 1; 0; 1; 2; 0;
     1; 2; 1; 2; 1; 2; 1; 2; 1; 2; 1; 2; 1; 2; 1; 1; 1; 1; 1; 1]%nat)
    (lbegin counter_scripts example_store) with
  | Some x =>
      map lc_done x.1 =
       [[COk (resp_frame (env_std false) (RValue (VInteger 1)))];
        [COk (resp_frame (env_std false) (RValue (VInteger 6)));
         COk (resp_frame (env_std false) (RValue (VInteger 5)))];
        [COk (resp_frame (env_std false) (RValue (VList [lit "x"])));
         COk (resp_frame (env_std false) (RValue (VInteger 7)))]] /\
      st_keys x.2 !! lit "n" = Some (VInteger 5)
  | None => False
  end.
Proof. vm_compute. split_and!; reflexivity. Qed.

(** C120 for appends, with the locks of the map. *)
Theorem C120_log_locked :
  forall sh k scripts s0 t lsched x,
  room_for_all scripts s0 -> envs_ok scripts -> ordinary k -> st_keys s0 !! k = None ->
  t = KTBytes \/ t = KTList \/ t = KTString ->
  (forall c, issued scripts c ->
     (exists l, appends c k t l /\ is_Some (append_to (blank t) l)) \/ ~ may_write (c_req c) k) ->
  lsys_run sh lsched (lbegin scripts s0) = Some x ->
  exists now out ls, (unlocked sh x k -> st_keys x.2 !! k = now) /\
    made_of_adds (adds_there scripts (fun c => appends c k t)) (strung t) (lbefore sh scripts s0 lsched)
      (lhas_returned x) (lwas_told scripts x) now out ls.
Proof. exact c120_log_locked. Qed.
Print Assumptions C120_log_locked.

(** The clients of [C120_log_nonvacuous], with locks. *)
Example C120_log_locked_nonvacuous :
  match lsys_run one_shard (map (fun i => (i, []))
    [0; 0; 0; 1; 2; 0; 1; 1; 1; 2; 2; 2; 0; 2; 0; 2; 0; 1; 2; 1; 2; 1; 2; 0; 0; 0; 0; 1; 0; 1; 0; 1; 0; 1; 2; 0;
     1; 2; 1; 2; 1; 2; 1; 2; 1; 2; 1; 2; 1; 2; 1; 1; 1; 1; 1; 1]%nat)
    (lbegin log_scripts example_store) with
  | Some x =>
      map lc_done x.1 =
       [[COk (resp_frame (env_std false) (RValue (VList [lit "a"])))];
        [COk (resp_frame (env_std false) (RValue (VList [lit "a"; lit "b"; lit "c"])));
         COk (resp_frame (env_std false) (RValue (VList [lit "a"; lit "b"; lit "c"; lit "e"; lit "d"])))];
        [COk (resp_frame (env_std false) (RValue (VList [lit "x"])));
         COk (resp_frame (env_std false) (RValue (VList [lit "a"; lit "b"; lit "c"; lit "e"])))]] /\
      st_keys x.2 !! lit "n" = None
  | None => False
  end.
Proof. vm_compute. split_and!; reflexivity. Qed.

(** C120 for tasks that share a memory client and add to a counter that is not there yet. *)
Theorem C120_tasks_counter :
  forall sh tasks k s0 D sched x,
  tasks_fit tasks s0 -> sendable tasks -> ordinary k -> k <> [] -> st_keys s0 !! k = None ->
  (forall e c, made_by_one tasks e c -> (exists d, adds_amount c k d) \/ ~ changes c k) ->
  (forall e c d, made_by_one tasks e c -> adds_amount c k d -> - D <= d <= D)%Z -> (0 <= D)%Z ->
  i64_range (D * Z.of_nat (length (concat tasks))) ->
  at_work sh tasks s0 sched = Some x ->
  exists now out ds, (unlocked sh x k -> st_keys x.2 !! k = now) /\
    made_of_adds (task_adds tasks k) summed (earlier sh tasks s0 sched) (task_over tasks x) (task_told tasks x)
      now out ds.
Proof. exact c120_tasks_counter. Qed.
Print Assumptions C120_tasks_counter.

Example C120_tasks_counter_nonvacuous :
  tasks_fit counter_tasks example_store /\ sendable counter_tasks /\
  st_keys example_store !! lit "n" = None /\
  (forall e c, made_by_one counter_tasks e c -> (exists d, adds_amount c (lit "n") d) \/ ~ changes c (lit "n")) /\
  (forall e c, made_by_one counter_tasks e c -> forall d, adds_amount c (lit "n") d -> (- (5) <= d <= 5)%Z) /\
  i64_range (5 * Z.of_nat (length (concat counter_tasks))) /\
  match at_work one_shard counter_tasks example_store counter_sched with
  | Some x =>
      zip_with (fun h cl => results h (lc_done cl)) counter_tasks x.1 =
        [[ROk (RpValue (VInteger 1))];
         [ROk (RpValue (VInteger 5)); RErr (CEBuildingRequest BEArgumentEmpty); ROk (RpValue (VInteger (-1)))];
         [ROk (RpValue (VList [lit "x"])); ROk (RpValue (VInteger 0))]] /\
      st_keys x.2 !! lit "n" = Some (VInteger 0)
  | None => False
  end.
Proof.
  split_and!.
  - roomy.
  - each_task_call; (split; [apply env_std_ok|vm_compute; discriminate]).
  - reflexivity.
  - each_task_call.
    + left. exists 1%Z. left. split; [by left|done].
    + left. exists 5%Z. right. by left.
    + right. by intros [].
    + left. exists (-2)%Z. right. by right.
    + right. by intros [].
    + left. exists 1%Z. left. split; [by right; right|done].
  - each_task_call; intros d [[[E|[E|E]] ->]|[E|E]]; try discriminate E; try lia; injection E as <-; lia.
  - vm_compute. split; [discriminate|reflexivity].
  - vm_compute. split_and!; reflexivity.
Qed.

(** C120 for tasks that share a memory client and append to a value that is not there yet. *)
Theorem C120_tasks_log :
  forall sh tasks k s0 t sched x,
  tasks_fit tasks s0 -> sendable tasks -> ordinary k -> k <> [] -> st_keys s0 !! k = None ->
  t = KTBytes \/ t = KTList \/ t = KTString ->
  (forall e c, made_by_one tasks e c ->
     (exists v, appends_value c k v /\ kind v = t /\ value_wf v) \/ ~ changes c k) ->
  (forall l vs, l <> [] -> NoDup l -> Forall2 (task_appends tasks k) l vs -> sound (appended t vs)) ->
  at_work sh tasks s0 sched = Some x ->
  exists now out vs, (unlocked sh x k -> st_keys x.2 !! k = now) /\
    made_of_adds (task_appends tasks k) (appended t) (earlier sh tasks s0 sched) (task_over tasks x)
      (task_told tasks x) now out vs.
Proof. exact c120_tasks_log. Qed.
Print Assumptions C120_tasks_log.

Example C120_tasks_log_nonvacuous :
  tasks_fit log_tasks example_store /\ sendable log_tasks /\
  st_keys example_store !! lit "m" = None /\
  (forall e c, made_by_one log_tasks e c ->
     (exists v, appends_value c (lit "m") v /\ kind v = KTList /\ value_wf v) \/ ~ changes c (lit "m")) /\
  (forall l vs, l <> [] -> NoDup l -> Forall2 (task_appends log_tasks (lit "m")) l vs -> sound (appended KTList vs)) /\
  match at_work one_shard log_tasks example_store log_sched with
  | Some x =>
      zip_with (fun h cl => results h (lc_done cl)) log_tasks x.1 =
        [[ROk (RpValue (VList [lit "a"]))];
         [ROk (RpValue (VList [lit "b"; lit "c"]))];
         [ROk (RpValue (VList [lit "x"])); ROk (RpValue (VList [lit "a"; lit "e"]))]]
  | None => False
  end.
Proof.
  split_and!.
  - roomy.
  - each_task_call; (split; [apply env_std_ok|vm_compute; discriminate]).
  - reflexivity.
  - each_task_call.
    + left. eexists. split; [by left|]. by vm_compute.
    + left. eexists. split; [by right|]. by vm_compute.
    + right. by intros [].
    + left. eexists. split; [by left|]. by vm_compute.
  - assert (Hcalls : forall a v, task_appends log_tasks (lit "m") a v ->
      (a = (0, 0)%nat /\ v = VList [lit "a"]) \/ (a = (1, 0)%nat /\ v = VList [lit "b"; lit "c"]) \/
      (a = (2, 1)%nat /\ v = VList [lit "e"])).
    { intros [i j] v (e & c & H & Hv & _). unfold task_call in H. cbn [fst snd] in H.
      destruct i as [|[|[|i]]]; cbn in H; try done; destruct j as [|[|j]]; cbn in H; try done;
        injection H as <- <-; destruct Hv as [E|E]; try discriminate E; injection E as <-; auto. }
    intros l vs Hl Hnd HF.
    assert (Hlen : length l <= 3).
    { apply (submseteq_length l [(0, 0); (1, 0); (2, 1)]%nat), NoDup_submseteq; [done|].
      intros a [i Hi]%elem_of_list_lookup. destruct (Forall2_lookup_l _ _ _ _ _ HF Hi) as (v & _ & Hv).
      destruct (Hcalls _ _ Hv) as [[-> _]|[[-> _]|[-> _]]]; set_solver. }
    apply (ok_value_sound (appended KTList vs)).
    destruct HF as [|a v l vs Ha HF]; [done|].
    destruct HF as [|a2 v2 l vs Ha2 HF].
    { by destruct (Hcalls _ _ Ha) as [[_ ->]|[[_ ->]|[_ ->]]]. }
    destruct HF as [|a3 v3 l vs Ha3 HF].
    { by destruct (Hcalls _ _ Ha) as [[_ ->]|[[_ ->]|[_ ->]]], (Hcalls _ _ Ha2) as [[_ ->]|[[_ ->]|[_ ->]]]. }
    destruct HF as [|a4 v4 l vs Ha4 HF]; [|cbn in Hlen; lia].
    by destruct (Hcalls _ _ Ha) as [[_ ->]|[[_ ->]|[_ ->]]], (Hcalls _ _ Ha2) as [[_ ->]|[[_ ->]|[_ ->]]],
      (Hcalls _ _ Ha3) as [[_ ->]|[[_ ->]|[_ ->]]].
  - vm_compute. reflexivity.
Qed.
