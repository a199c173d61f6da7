(** Properties of calls and clients that have nothing to do with each other: C92 - C94.
    The vocabulary is in [IsoSpec], [LinSpec], [ConcSpec] and [HistorySpec]; clients that issue one
    call after another in [Scripts] and, with the locks of the store, in [LockScripts]. *)
From Coq Require Import String.
From Verif Require Import Locks LockSpec LockScripts LockScriptSpec.
From Verif Require Import Bytes BytesFacts Utf8 Float64 Value CommandId
  Request Response RespContext Metrics Prog Commands EngineSpec WireSpec RequestSpec
  HistorySpec EngineProps Concurrent ConcSpec ConcFacts ConcProps ConcExact Scripts LinSpec
  LinFacts IsoSpec IsoFacts IsoProps.
From stdpp Require Import gmap list.
From Coq Require Import NArith ZArith.

Ltac asked := apply a_request_asks; [reflexivity|vm_compute; discriminate|vm_compute; reflexivity].

(** The state of the examples. *)
Definition example_store : store :=
  store_of [(lit "n", VInteger 40); (lit "a", VInteger 5); (lit "l", VList [lit "x"])].

Ltac roomy_all := let m := fresh in intros m; unfold example_store, store_of, count; cbn [st_counters];
  rewrite lookup_empty; vm_compute; reflexivity.

(** All keys in one shard. *)
Definition one_shard : shards := Shards (fun _ => 0%N) (fun _ => 0%N).

Notation incr k := (ask CIncrement None [lit k]) (only parsing).
Notation get k := (ask CGet None [lit k]) (only parsing).
Notation del k := (ask CDelete None [lit k]) (only parsing).
Notation push k l := (ask CAppend (Some KTList) (lit k :: l)) (only parsing).

(** C92: two neighbouring calls of a history neither of which may change a key the other uses can be
    swapped: both answer the same as before, every other call does, and the state at the end, counters
    included, is the same. *)
Theorem C92_commute :
  forall h1 a b h2 s,
  room_for (h1 ++ a :: b :: h2) s -> apart a b ->
  exists s' rs1 ra rb rs2, length rs1 = length h1 /\
    run_calls (h1 ++ a :: b :: h2) s = (s', rs1 ++ ra :: rb :: rs2) /\
    run_calls (h1 ++ b :: a :: h2) s = (s', rs1 ++ rb :: ra :: rs2).
Proof. exact c92. Qed.
Print Assumptions C92_commute.

Example C92_nonvacuous :
  let a := push "l" [lit "y"] in let b := ask CRename None [lit "a"; lit "b"] in
  room_for ([get "l"] ++ a :: b :: [get "b"; ask CStats None []]) example_store /\ apart a b /\
  map is_ok (run_calls ([get "l"] ++ a :: b :: [get "b"; ask CStats None []]) example_store).2 =
    [true; true; true; true; true].
Proof.
  cbn zeta. split_and!; [roomy_all| |vm_compute; reflexivity].
  assert (Ha : asks (c_req (push "l" [lit "y"])) CAppend (Some KTList) [lit "l"; lit "y"]) by asked.
  assert (Hb : asks (c_req (ask CRename None [lit "a"; lit "b"])) CRename None [lit "a"; lit "b"]) by asked.
  split; [done|]. split; [done|]. intros k. split.
  - intros Hu Hw%may_write_uses. apply (asks_uses _ _ _ _ _ Hb) in Hw.
    assert (k = lit "l") as -> by (vm_compute in Hu; by injection Hu).
    by apply elem_of_cons in Hw as [?|[?|[]%elem_of_nil]%elem_of_cons].
  - intros Hu Hw%may_write_uses. apply (asks_uses _ _ _ _ _ Hb) in Hu.
    assert (k = lit "l") as -> by (vm_compute in Hw; by injection Hw).
    by apply elem_of_cons in Hu as [?|[?|[]%elem_of_nil]%elem_of_cons].
Qed.

(** Calls about the same key cannot be swapped. *)
Example C92_same_key :
  map is_ok (run_calls [del "a"; get "a"] example_store).2 = [true; false] /\
  map is_ok (run_calls [get "a"; del "a"] example_store).2 = [true; true].
Proof. split; vm_compute; reflexivity. Qed.

(** C93: a client no other client of which may change the keys it uses gets, call by call, the answers
    it would get alone; whenever it is between two calls its keys hold what they would then hold. *)
Theorem C93_private_keys :
  forall scripts s0 i sc sched x cl,
  room_for_all scripts s0 -> scripts !! i = Some sc -> alone_with_its_keys scripts i ->
  sys_run sched (begin scripts s0) = Some x -> x.1 !! i = Some cl ->
  let alone := run_calls (take (length (cl_done cl)) sc) s0 in
  cl_done cl = alone.2 /\
  (cl_now cl = None -> forall k, uses_one sc k -> st_keys x.2 !! k = st_keys alone.1 !! k).
Proof. exact c93. Qed.
Print Assumptions C93_private_keys.

(** C93 with the locks of the store: the same for every key that nobody has locked for writing. *)
Theorem C93_locked :
  forall sh scripts s0 i sc lsched x cl,
  room_for_all scripts s0 -> scripts !! i = Some sc -> alone_with_its_keys scripts i ->
  lsys_run sh lsched (lbegin scripts s0) = Some x -> x.1 !! i = Some cl ->
  let alone := run_calls (take (length (lc_done cl)) sc) s0 in
  lc_done cl = alone.2 /\
  (lc_now cl = None -> forall k, uses_one sc k -> unlocked sh x k ->
     st_keys x.2 !! k = st_keys alone.1 !! k).
Proof. exact c93_locked. Qed.
Print Assumptions C93_locked.

(** C94: if that holds for all clients, the answers and the data at the end are those of serving one
    client after the other, whatever the schedule was. *)
Theorem C94_disjoint :
  forall scripts s0 sched x,
  room_for_all scripts s0 -> (forall i, alone_with_its_keys scripts i) ->
  sys_run sched (begin scripts s0) = Some x -> Forall client_finished x.1 ->
  let turns := run_calls (concat scripts) s0 in
  concat (map cl_done x.1) = turns.2 /\ st_keys x.2 = st_keys turns.1.
Proof. exact c94. Qed.
Print Assumptions C94_disjoint.

(** C94 with the locks of the store. *)
Theorem C94_locked :
  forall sh scripts s0 lsched x,
  room_for_all scripts s0 -> (forall i, alone_with_its_keys scripts i) ->
  lsys_run sh lsched (lbegin scripts s0) = Some x -> Forall lfinished x.1 ->
  let turns := run_calls (concat scripts) s0 in
  concat (map lc_done x.1) = turns.2 /\ st_keys x.2 = st_keys turns.1.
Proof. exact c94_locked. Qed.
Print Assumptions C94_locked.

(** Two clients, one of which creates, renames and deletes. *)
Definition example_scripts : list (list call) :=
  [[incr "n"; incr "new"; get "n"];
   [push "l" [lit "y"]; ask CRename None [lit "a"; lit "b"]; get "b"; del "zz"]].
Definition example_sched : list nat :=
  [1; 0; 1; 0; 1; 0; 1; 0; 1; 0; 1; 0; 1; 0; 1; 0; 1; 0; 1; 0; 1; 0; 1;
   0; 1; 0; 1; 0; 1; 1; 1; 1; 1]%nat.
Definition example_lock_sched : list (nat * list value) := map (fun i => (i, []))
  [1; 0; 1; 1; 1; 1; 0; 1; 0; 1; 0; 1; 0; 1; 0; 1; 0; 1; 0; 1; 0; 1; 0;
   1; 1; 1; 0; 0; 0; 1; 1; 1; 0; 0; 0; 1; 1; 1; 0; 1; 0; 1; 0; 1; 0; 1;
   0; 1; 0; 1; 0; 1; 0; 1; 0; 1; 0; 1; 0; 1; 0; 1; 0; 1; 0; 1; 0; 1; 0;
   1; 1; 1; 1; 1]%nat.

Example C93_nonvacuous :
  room_for_all example_scripts example_store /\
  (forall i, alone_with_its_keys example_scripts i) /\
  match sys_run example_sched (begin example_scripts example_store) with
  | Some x => Forall client_finished x.1 /\
      map (fun cl => map is_ok (cl_done cl)) x.1 = [[true; true; true]; [true; true; true; false]] /\
      st_keys x.2 !! lit "n" = Some (VInteger 41) /\ st_keys x.2 !! lit "new" = Some (VInteger 1) /\
      st_keys x.2 !! lit "b" = Some (VInteger 5)
  | None => False
  end /\
  match lsys_run one_shard example_lock_sched (lbegin example_scripts example_store) with
  | Some x => Forall lfinished x.1 /\
      map (fun cl => map is_ok (lc_done cl)) x.1 = [[true; true; true]; [true; true; true; false]]
  | None => False
  end.
Proof.
  split_and!.
  - roomy_all.
  - apply alone_by with (owner := fun k =>
      if bool_decide (k = lit "n") || bool_decide (k = lit "new") then 0%nat else 1%nat).
    intros [|[|i]] j c Hc; [..|by destruct i]; destruct j as [|[|[|[|j]]]]; cbn in Hc; try done.
    all: injection Hc as <-; split; [done|]; intros k Hu.
    all: try (vm_compute in Hu; injection Hu as <-; reflexivity).
    assert (Hb : asks (c_req (ask CRename None [lit "a"; lit "b"])) CRename None [lit "a"; lit "b"]) by asked.
    apply (asks_uses _ _ _ _ _ Hb) in Hu.
    by apply elem_of_cons in Hu as [->|[->|[]%elem_of_nil]%elem_of_cons].
  - vm_compute. split_and!; try reflexivity. by repeat constructor.
  - vm_compute. split_and!; try reflexivity. by repeat constructor.
Qed.
