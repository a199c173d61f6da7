(** Calls come to an end: C90, C91.
    The vocabulary is in [FairSpec], [WaitFreeSpec], [LockScriptSpec] and [ConcSpec]. *)
From Coq Require Import String.
From Verif Require Import Bytes BytesFacts Utf8 Value CommandId Request Response Metrics Prog Commands
  Concurrent HistorySpec ConcSpec ConcFacts Scripts LinSpec Locks LockSpec LockScripts
  LockScriptSpec FairSpec ScriptBound WaitFreeSpec WaitFree
  Client ClientSpec MemTasks MemTaskSpec MemFair.
From stdpp Require Import gmap list.
From Coq Require Import NArith ZArith Lia.

Definition example_store : store :=
  store_of [(lit "n", VInteger 40); (lit "a", VInteger 5); (lit "l", VList [lit "x"])].
Definition one_shard : shards := Shards (fun _ => 0%N) (fun _ => 0%N).
Definition example_scripts : list (list call) :=
  [[ask CAppend (Some KTList) [lit "l"; lit "a"]; ask CIncrement None [lit "new"]];
   [ask CDelete None [lit "new"]; ask CIncrement None [lit "n"]]].

(** C90: whatever the schedule, the calls of all clients together take a bounded number of steps (a call and
    a return are one step each). *)
Theorem C90_bounded :
  forall scripts s0 sched x,
  sys_run sched (begin scripts s0) = Some x ->
  (lenN sched <= lenN (concat scripts) * (2 * lenN scripts + 9) +
     fold_right (fun c n => arg_count (c_req c) + n) 0 (concat scripts))%N.
Proof. exact c90_bounded. Qed.
Print Assumptions C90_bounded.

(** C90 with the locks: a value may go through any number of states while it is changed. *)
Theorem C90_lock_bounded :
  forall sh scripts s0 lsched x,
  lsys_run sh lsched (lbegin scripts s0) = Some x ->
  (lenN lsched <= 4 * (lenN (concat scripts) * (2 * lenN scripts + 9) +
     fold_right (fun c n => arg_count (c_req c) + n) 0 (concat scripts)) + 2 * lenN scripts
     + fold_right (fun x n => lenN x.2 + n) 0 lsched)%N.
Proof. exact c90_lock_bounded. Qed.
Print Assumptions C90_lock_bounded.

(** C90: when no client can make a step, all calls have been made and have returned. *)
Theorem C90_stops :
  forall sh scripts s0 lsched x,
  lsys_run sh lsched (lbegin scripts s0) = Some x ->
  (forall i mid, lsys_step sh i mid x = None) -> Forall lfinished x.1.
Proof. exact c90_stops. Qed.
Print Assumptions C90_stops.

(** C90: under every fair scheduler, whatever the shards and whatever values go through, the calls of all
    clients return. *)
Theorem C90_fair :
  forall sh scripts s0 f,
  fair (length scripts) f -> exists n, Forall lfinished (tries sh f n (lbegin scripts s0)).1.
Proof. exact c90_fair. Qed.
Print Assumptions C90_fair.

(** Taking turns is fair; after 20 picks the clients of the example are still busy, after 80 they have
    finished. *)
Definition in_turn (n : nat) : nat * list value := (Nat.modulo n 2, [VList []]).

Example C90_nonvacuous :
  fair (length example_scripts) in_turn /\
  forallb (fun cl => bool_decide (lfinished cl))
    (tries one_shard in_turn 20 (lbegin example_scripts example_store)).1 = false /\
  forallb (fun cl => bool_decide (lfinished cl))
    (tries one_shard in_turn 80 (lbegin example_scripts example_store)).1 = true /\
  map (fun cl => map is_ok (lc_done cl))
    (tries one_shard in_turn 80 (lbegin example_scripts example_store)).1 = [[true; true]; [false; true]].
Proof.
  split_and!; [|vm_compute; reflexivity..].
  intros i Hi n. exists (i + n * 2)%nat. split; [lia|]. unfold in_turn. cbn [fst].
  rewrite Nat.mod_add by done. apply Nat.mod_small. exact Hi.
Qed.

(** C90: and so under every fair scheduler every call of every task that shares a memory client returns. *)
Theorem C90_tasks :
  forall sh tasks s0 f,
  fair (length tasks) f ->
  exists n, forall m a e c, n <= m -> task_call tasks a = Some (e, c) ->
    exists r, got tasks (tries sh f m (lbegin (map dispatches tasks) s0)) a r.
Proof. exact c90_tasks. Qed.
Print Assumptions C90_tasks.

Example C90_tasks_nonvacuous :
  let tasks := [[(env_std true, KAppend (lit "l") (VList [lit "a"])); (env_std true, KAppend (lit "l") (VInteger 4));
                 (env_std true, KIncrement (lit "new") None)];
                [(env_std true, KDelete (lit "new")); (env_std true, KGet (lit "n"))]] in
  let after n := zip_with (fun h cl => length (results h (lc_done cl))) tasks
    (tries one_shard in_turn n (lbegin (map dispatches tasks) example_store)).1 in
  fair (length tasks) in_turn /\ after 20%nat = [2; 0]%nat /\ after 80%nat = [3; 2]%nat.
Proof.
  split_and!; [|vm_compute; reflexivity..].
  intros i Hi n. exists (i + n * 2)%nat. split; [lia|]. unfold in_turn. cbn [fst].
  rewrite Nat.mod_add by done. apply Nat.mod_small. exact Hi.
Qed.

(** C91 is false of commands that may create their key: an increment of a missing key can be kept busy for
    any number of its own steps by deletes of the key. *)
Theorem C91_refuted :
  forall (s0 : store) (n : nat),
  st_keys s0 !! lit "new"%string = None ->
  exists m sched ts s,
    let cs := ask CIncrement None [lit "new"%string] :: replicate m (ask CDelete None [lit "new"%string]) in
    reaches cs s0 sched ts s /\ n <= moves 0 sched /\ forall r, ts !! 0 <> Some (PRet r).
Proof. exact c91_starves. Qed.
Print Assumptions C91_refuted.

(** C91: other commands return after at most seven of their own steps plus one per argument, whatever the
    others do; and so do all commands when no other one takes a key away.  Missing: Set, Append, Increment(By)
    and Decrement(By) next to Delete, Rename or Set. *)
Theorem C91_partial :
  forall cs s0 sched ts s i c,
  reaches cs s0 sched ts s -> cs !! i = Some c ->
  looks_again (r_command (c_req c)) = false \/
  (forall j c', j <> i -> cs !! j = Some c' -> takes_away (r_command (c_req c')) = false) ->
  (N.of_nat (moves i sched) <= 7 + arg_count (c_req c))%N.
Proof. exact c91. Qed.
Print Assumptions C91_partial.

Example C91_nonvacuous :
  let cs := [ask CRename None [lit "a"; lit "b"]; ask CDelete None [lit "b"]; ask CIncrement None [lit "b"]] in
  let sched := [0; 0; 0; 2; 0; 2; 1; 2; 2; 1; 0; 2; 2]%nat in
  match pool_run sched (start cs example_store) with
  | Some x => moves 2 sched = 6%nat /\ moves 0 sched = 5%nat /\ map returned_ok x.1 = [true; true; true]
  | None => False
  end /\
  looks_again (r_command (c_req (ask CRename None [lit "a"; lit "b"]))) = false.
Proof. vm_compute. repeat split; reflexivity. Qed.
