(** Every value a key ever holds is accounted for by the calls that change it: C125.
    The vocabulary is in [LedgerSpec], [WroteSpec] and [SeenSpec]; clients that issue one call after another, with
    the map's locks, in [LockScripts]; tasks that share a memory client in [MemTasks]. *)
From Coq Require Import String.
From Verif Require Import Locks LockSpec LockScripts LockScriptSpec.
From Verif Require Import Bytes BytesFacts Utf8 Float64 Value CommandId Request RequestSpec Response RespContext WireSpec
  EngineSpec Metrics Prog Commands HistorySpec EngineProps ConcSpec Scripts LinSpec KeyLinSpec MomentSpec
  Client ClientSpec ClientProps MemTasks MemTaskSpec SeenSpec WroteSpec WroteFacts LedgerSpec LedgerFacts.
From stdpp Require Import gmap list.
From Coq Require Import NArith ZArith Lia.

(** C125: between any two moments at which nobody writes to the shard of a key, what the key held at the first
    became what it held at the second by changes that stand in one order: each was made by one of the calls, on what
    the one before had left, having the key to itself, and is one that this call can make. *)
Theorem C125_ledger :
  forall sh scripts s0 sched k n n' o o',
  room_for_all scripts s0 -> n <= n' ->
  held sh scripts s0 sched k n o -> held sh scripts s0 sched k n' o' ->
  ledger sh scripts s0 sched k n o n' o'.
Proof. exact c125_ledger. Qed.
Print Assumptions C125_ledger.

(** C125: a key that no call is to change holds what it held at the start. *)
Theorem C125_untouched :
  forall sh scripts s0 sched k n o,
  room_for_all scripts s0 ->
  (forall b c, call_at scripts b = Some c ->
     (changes_one (r_command (c_req c)) \/ r_command (c_req c) = CRename -> arg (c_req c) 0 <> Some k) /\
     (r_command (c_req c) = CRename -> arg (c_req c) 1 <> Some k)) ->
  held sh scripts s0 sched k n o -> o = st_keys s0 !! k.
Proof. exact c125_untouched. Qed.
Print Assumptions C125_untouched.

(** C125: what a key holds it goes on holding until a call puts something else there, having the key to itself. *)
Theorem C125_stays :
  forall sh scripts s0 sched k n n' o o',
  room_for_all scripts s0 -> n <= n' ->
  held sh scripts s0 sched k n o -> held sh scripts s0 sched k n' o' ->
  (forall b c m m' p p', call_at scripts b = Some c -> n <= m -> m' <= n' ->
     replaced sh scripts s0 sched b k m m' p p' -> p' = p) ->
  o' = o.
Proof. exact c125_stays. Qed.
Print Assumptions C125_stays.

(** C125: what all values have at the start, and blank values have with which a call may begin, and each call alone
    keeps, all values have that are ever at any key. *)
Theorem C125_all :
  forall (P : value -> Prop) sh scripts s0 sched,
  room_for_all scripts s0 ->
  (forall k v, st_keys s0 !! k = Some v -> P v) ->
  (forall b c k t, call_at scripts b = Some c -> changes_one (r_command (c_req c)) -> r_command (c_req c) <> CDelete ->
     arg (c_req c) 0 = Some k -> begins_as (c_req c) t -> P (blank t)) ->
  (forall b c k v v', call_at scripts b = Some c -> changes_one (r_command (c_req c)) -> arg (c_req c) 0 = Some k ->
     P v -> st_keys (dispatch (c_env c) (just k (Some v)) (c_req c) (c_res c)).1 !! k = Some v' -> P v') ->
  forall k n v, held sh scripts s0 sched k n (Some v) -> P v.
Proof. exact c125_all. Qed.
Print Assumptions C125_all.

(** C125: and every change that a call makes, having the key to itself, is one that this call can make. *)
Theorem C125_each :
  forall sh scripts s0 sched b c k n n' o o',
  room_for_all scripts s0 -> call_at scripts b = Some c -> replaced sh scripts s0 sched b k n n' o o' ->
  o' = o \/ may_change sh scripts s0 sched b c k n o o'.
Proof. exact c125_each. Qed.
Print Assumptions C125_each.

(** Two clients add to one integer and rename it; two others set one key to values of two types. *)
Definition a_store : store := store_of [(lit "k", VList [lit "x"]); (lit "n", VInteger 5); (lit "j", VInteger 5)].
Definition some_tasks : list task :=
  [[(env_std true, KIncrementInt (lit "n") (Some 2%Z)); (env_std true, KRename (lit "n") (lit "m"))];
   [(env_std true, KIncrementInt (lit "n") (Some 10%Z)); (env_std true, KRename (lit "n") (lit "m"))];
   [(env_std true, KSet (lit "k") (VInteger 7))];
   [(env_std true, KSet (lit "k") (VBoolean true)); (env_std true, KDelete (lit "j"))]].
Definition some_scripts : list (list call) := map dispatches some_tasks.
Definition one_shard : shards := Shards (fun _ => 0%N) (fun _ => 0%N).
Definition some_schedule : list (nat * list value) :=
  map (fun i => (i, [])) (replicate 1 0 ++ replicate 13 1 ++ replicate 13 0 ++ replicate 3 1 ++ replicate 12 0 ++
    replicate 7 1 ++ replicate 4 2 ++ replicate 10 3 ++ replicate 8 2 ++ replicate 16 3)%nat.

Definition in_call (x : lsystem) (b : nat * nat) : bool :=
  match x.1 !! b.1 with
  | Some cl => Nat.eqb (length (lc_done cl)) b.2 && match lc_now cl with Some _ => true | None => false end
  | None => false
  end.
Definition has_lock (x : lsystem) (b : nat * nat) (k : bytes) : bool :=
  match x.1 !! b.1 with
  | Some cl => bool_decide (holding one_shard (lc_thread cl) = Some (KeyLock (key_shard one_shard k), true))
  | None => false
  end.
Definition all_clear (x : lsystem) (k : bytes) : bool :=
  forallb (fun cl => negb (bool_decide (holding one_shard (lc_thread cl) = Some (KeyLock (key_shard one_shard k), true)))) x.1.
Definition at_step (n : nat) (P : lsystem -> bool) : bool :=
  match lsys_run one_shard (take n some_schedule) (lbegin some_scripts a_store) with Some y => P y | None => false end.

Lemma in_call_running x b : in_call x b = true -> running x b.
Proof.
  unfold in_call, running. destruct (x.1 !! b.1) as [cl|]; [|done].
  intros [H1%Nat.eqb_eq H2]%andb_prop. exists cl. split_and!; [done|done|]. by destruct (lc_now cl).
Qed.

Lemma noticed_by_step b k n o : n <= length some_schedule ->
  at_step n (fun y => in_call y b && all_clear y k && bool_decide (st_keys y.2 !! k = o)) = true ->
  noticed one_shard some_scripts a_store some_schedule b k n o.
Proof.
  intros Hn H. split; [done|]. unfold at_step in H. destruct (lsys_run _ _ _) as [y|]; [|done]. exists y.
  apply andb_prop in H as [[H1 H2]%andb_prop H3]. split_and!; [done|by apply in_call_running| |by apply bool_decide_eq_true in H3].
  intros cl Hcl Hh. unfold all_clear in H2. rewrite forallb_forall in H2.
  specialize (H2 cl (proj1 (elem_of_list_In _ _) Hcl)). by rewrite Hh, bool_decide_true in H2.
Qed.

Lemma writing_by_step b k n z : at_step n (fun y => in_call y b && has_lock y b k) = true ->
  lsys_run one_shard (take n some_schedule) (lbegin some_scripts a_store) = Some z -> writing one_shard z b k.
Proof.
  intros H Hz. unfold at_step in H. rewrite Hz in H. apply andb_prop in H as [H1%in_call_running H2].
  destruct H1 as (cl & Hcl & Hd & _). unfold has_lock in H2. rewrite Hcl in H2. exists cl. split_and!; [done|done|].
  by apply bool_decide_eq_true in H2.
Qed.

Lemma held_by_step k n o : n <= length some_schedule ->
  at_step n (fun y => all_clear y k && bool_decide (st_keys y.2 !! k = o)) = true ->
  held one_shard some_scripts a_store some_schedule k n o.
Proof.
  intros Hn H. split; [done|]. unfold at_step in H. destruct (lsys_run _ _ _) as [y|]; [|done]. exists y.
  apply andb_prop in H as [H2 H3]. split_and!; [done| |by apply bool_decide_eq_true in H3].
  intros cl Hcl Hh. unfold all_clear in H2. rewrite forallb_forall in H2.
  specialize (H2 cl (proj1 (elem_of_list_In _ _) Hcl)). by rewrite Hh, bool_decide_true in H2.
Qed.

(** The integer is 5 at first.  Then it is 15, and the ledger has one line: the second task added 10, between the
    second and the sixth step.  In the end the key is not there, and its value is at the other. *)
Example C125_nonvacuous :
  room_for_all some_scripts a_store /\
  held one_shard some_scripts a_store some_schedule (lit "n") 0 (Some (VInteger 5)) /\
  held one_shard some_scripts a_store some_schedule (lit "n") 6 (Some (VInteger 15)) /\
  held one_shard some_scripts a_store some_schedule (lit "n") (length some_schedule) None /\
  held one_shard some_scripts a_store some_schedule (lit "m") (length some_schedule) (Some (VInteger 17)) /\
  ledger one_shard some_scripts a_store some_schedule (lit "n") 0 (Some (VInteger 5)) 6 (Some (VInteger 15)).
Proof.
  split_and!.
  - intros m. by destruct m.
  - apply held_by_step; [by apply Nat.leb_le|vm_compute; reflexivity].
  - apply held_by_step; [by apply Nat.leb_le|vm_compute; reflexivity].
  - apply held_by_step; [by apply Nat.leb_le|vm_compute; reflexivity].
  - apply held_by_step; [by apply Nat.leb_le|vm_compute; reflexivity].
  - eapply (ledger_entry _ _ _ _ _ _ _ 6 2 6 (1, 0)); [by apply ledger_new; lia|vm_compute; reflexivity| | |done].
    + split_and!; [lia| | |].
      * apply noticed_by_step; [by apply Nat.leb_le|vm_compute; reflexivity].
      * apply noticed_by_step; [by apply Nat.leb_le|vm_compute; reflexivity].
      * intros m z H1 H2. assert (Hm : m = 3 \/ m = 4 \/ m = 5) by lia.
        destruct Hm as [->|[->| ->]]; apply writing_by_step; vm_compute; reflexivity.
    + split; [reflexivity|]. right. right. eexists. split; [reflexivity|]. vm_compute. reflexivity.
Qed.

(** No call can change the key [other].  The last two clients only set and delete; no value but these comes about. *)
Definition these (v : value) : Prop :=
  v ∈ [VList [lit "x"]; VInteger 5; VInteger 7; VInteger 0; VBoolean true; VBoolean false].
Example C125_all_nonvacuous :
  (forall b c, call_at some_scripts b = Some c ->
     (changes_one (r_command (c_req c)) \/ r_command (c_req c) = CRename -> arg (c_req c) 0 <> Some (lit "other")) /\
     (r_command (c_req c) = CRename -> arg (c_req c) 1 <> Some (lit "other"))) /\
  room_for_all (drop 2 some_scripts) a_store /\
  (forall k v, st_keys a_store !! k = Some v -> these v) /\
  (forall b c k t, call_at (drop 2 some_scripts) b = Some c -> changes_one (r_command (c_req c)) ->
     r_command (c_req c) <> CDelete -> arg (c_req c) 0 = Some k -> begins_as (c_req c) t -> these (blank t)) /\
  (forall b c k v v', call_at (drop 2 some_scripts) b = Some c -> changes_one (r_command (c_req c)) ->
     arg (c_req c) 0 = Some k -> these v ->
     st_keys (dispatch (c_env c) (just k (Some v)) (c_req c) (c_res c)).1 !! k = Some v' -> these v').
Proof.
  assert (Hb : forall b c, call_at some_scripts b = Some c -> b ∈ [(0,0);(0,1);(1,0);(1,1);(2,0);(3,0);(3,1)]).
  { intros [i j] c H. unfold call_at in H. cbn [fst snd] in H.
    destruct i as [|[|[|[|i]]]]; vm_compute in H; try done; destruct j as [|[|j]]; try done; set_solver. }
  assert (Hb' : forall b c, call_at (drop 2 some_scripts) b = Some c -> b ∈ [(0,0);(1,0);(1,1)]).
  { intros [i j] c H. unfold call_at in H. cbn [fst snd] in H.
    destruct i as [|[|i]]; vm_compute in H; try done; destruct j as [|[|j]]; try done; set_solver. }
  split_and!.
  - intros b c H. pose proof (Hb b c H) as Hin. rewrite !elem_of_cons in Hin.
    destruct Hin as [->|[->|[->|[->|[->|[->|[->|[]%elem_of_nil]]]]]]]; vm_compute in H; injection H as <-;
      split; intros _; vm_compute; discriminate.
  - intros m. by destruct m.
  - intros k v H. unfold a_store, store_of in H. cbn [st_keys] in H. apply elem_of_list_to_map_2 in H.
    rewrite !elem_of_cons in H. unfold these. rewrite !elem_of_cons.
    destruct H as [[= -> ->]|[[= -> ->]|[[= -> ->]|[]%elem_of_nil]]]; tauto.
  - intros b c k t H _ Hd _ Ht. pose proof (Hb' b c H) as Hin. rewrite !elem_of_cons in Hin.
    destruct Hin as [->|[->|[->|[]%elem_of_nil]]]; vm_compute in H; injection H as <-;
      unfold begins_as in Ht; cbn in Ht, Hd; try done; destruct Ht as [[=]|[= <-]]; unfold these;
      rewrite !elem_of_cons; cbn; tauto.
  - intros b c k v v' H _ Hk Hv Hd. pose proof (Hb' b c H) as Hin. rewrite !elem_of_cons in Hin.
    unfold these in Hv. rewrite !elem_of_cons in Hv.
    destruct Hin as [->|[->|[->|[]%elem_of_nil]]]; vm_compute in H; injection H as <-;
      vm_compute in Hk; injection Hk as <-; destruct Hv as [->|[->|[->|[->|[->|[->|[]%elem_of_nil]]]]]];
      vm_compute in Hd; try discriminate; injection Hd as <-; unfold these; rewrite !elem_of_cons; tauto.
Qed.

(** C125: and so with any number of tasks sharing one memory client. *)
Theorem C125_tasks :
  forall sh tasks s0 sched k n n' o o',
  sendable tasks -> tasks_fit tasks s0 -> n <= n' ->
  task_held sh tasks s0 sched k n o -> task_held sh tasks s0 sched k n' o' ->
  task_ledger sh tasks s0 sched k n o n' o'.
Proof. exact c125_tasks. Qed.
Print Assumptions C125_tasks.

(** C125: and every change that a call of a task makes is one that this call can make. *)
Theorem C125_tasks_each :
  forall sh tasks s0 sched a e c k n n' o o',
  sendable tasks -> tasks_fit tasks s0 -> task_call tasks a = Some (e, c) -> refused c = None ->
  task_replaced sh tasks s0 sched a k n n' o o' ->
  o' = o \/ task_may_change sh tasks s0 sched a e c k n o o'.
Proof. exact c125_tasks_each. Qed.
Print Assumptions C125_tasks_each.

(** C125: and so with tasks: what a key holds stays until a call of a task puts something else there. *)
Theorem C125_tasks_stays :
  forall sh tasks s0 sched k n n' o o',
  sendable tasks -> tasks_fit tasks s0 -> n <= n' ->
  task_held sh tasks s0 sched k n o -> task_held sh tasks s0 sched k n' o' ->
  (forall a e c m m' p p', task_call tasks a = Some (e, c) -> n <= m -> m' <= n' ->
     task_replaced sh tasks s0 sched a k m m' p p' -> p' = p) ->
  o' = o.
Proof. exact c125_tasks_stays. Qed.
Print Assumptions C125_tasks_stays.

(** C125: a key that tasks only set holds, whenever nobody writes to its shard, what it held at the start, or the
    value of one of these sets, whole, or nothing at all, or the blank value of the type of one of them. *)
Theorem C125_sets :
  forall sh tasks s0 sched k n o,
  sendable tasks -> tasks_fit tasks s0 -> ordinary k ->
  (forall e c, made_by_one tasks e c -> (exists w, sets_to c k w /\ sound w) \/ ~ changes c k) ->
  task_held sh tasks s0 sched k n o ->
  o = None \/ o = st_keys s0 !! k \/
  exists e c w, made_by_one tasks e c /\ sets_to c k w /\ (o = Some w \/ o = Some (blank (kind w))).
Proof. exact c125_sets. Qed.
Print Assumptions C125_sets.

(** From the sixth step to the ninth nobody writes to the key's shard, so no call replaces anything, and 15 stays. *)
Example C125_stays_nonvacuous :
  held one_shard some_scripts a_store some_schedule (lit "n") 6 (Some (VInteger 15)) /\
  held one_shard some_scripts a_store some_schedule (lit "n") 9 (Some (VInteger 15)) /\
  (forall b c m m' p p', call_at some_scripts b = Some c -> 6 <= m -> m' <= 9 ->
     replaced one_shard some_scripts a_store some_schedule b (lit "n") m m' p p' -> p' = p).
Proof.
  split_and!; [apply held_by_step; [by apply Nat.leb_le|vm_compute; reflexivity]..|].
  intros b c m m' p p' _ H1 H2 (Hlt & _ & _ & Hw). exfalso.
  assert (Hm : S m = 7 \/ S m = 8) by lia.
  assert (Hclear : at_step (S m) (fun y => all_clear y (lit "n")) = true) by (destruct Hm as [-> | ->]; vm_compute; reflexivity).
  unfold at_step in Hclear. destruct (lsys_run _ _ _) as [y|] eqn:E; [|done].
  destruct (Hw (S m) y) as (cl & Hcl & _ & Hh); [lia|lia|done|].
  unfold all_clear in Hclear. rewrite forallb_forall in Hclear.
  specialize (Hclear cl (proj1 (elem_of_list_In _ _) (elem_of_list_lookup_2 _ _ _ Hcl))). by rewrite Hh, bool_decide_true in Hclear.
Qed.

Example C125_tasks_nonvacuous :
  sendable some_tasks /\ tasks_fit some_tasks a_store /\ ordinary (lit "k") /\
  (forall e c, made_by_one some_tasks e c -> (exists w, sets_to c (lit "k") w /\ sound w) \/ ~ changes c (lit "k")) /\
  task_held one_shard some_tasks a_store some_schedule (lit "n") 6 (Some (VInteger 15)) /\
  task_held one_shard some_tasks a_store some_schedule (lit "k") 0 (Some (VList [lit "x"])) /\
  task_held one_shard some_tasks a_store some_schedule (lit "k") (length some_schedule) (Some (VBoolean true)).
Proof.
  assert (Hcs : forall e c, made_by_one some_tasks e c -> e = env_std true /\
    c ∈ [KIncrementInt (lit "n") (Some 2%Z); KRename (lit "n") (lit "m"); KIncrementInt (lit "n") (Some 10%Z);
         KSet (lit "k") (VInteger 7); KSet (lit "k") (VBoolean true); KDelete (lit "j")]).
  { intros e c [[i j] H]. unfold task_call in H. cbn [fst snd] in H. rewrite !elem_of_cons.
    destruct i as [|[|[|[|i]]]]; cbn in H; try done; destruct j as [|[|[|j]]]; cbn in H; try done; injection H as <- <-; tauto. }
  split_and!.
  - intros e c H. destruct (Hcs e c H) as [-> Hc]. rewrite !elem_of_cons in Hc. split; [apply env_std_ok|].
    destruct Hc as [->|[->|[->|[->|[->|[->|[]%elem_of_nil]]]]]]; vm_compute; discriminate.
  - intros m. by destruct m.
  - split; [done|]. by intros [r [=]].
  - intros e c H. destruct (Hcs e c H) as [-> Hc]. rewrite !elem_of_cons in Hc.
    destruct Hc as [->|[->|[->|[->|[->|[->|[]%elem_of_nil]]]]]];
      try (right; cbn; rewrite !elem_of_cons, elem_of_nil; intros H'; by repeat destruct H' as [H'|H']).
    + left. eexists. split; [by left|]. by apply ClientFacts.sound_int.
    + left. eexists. split; [by left|]. by split_and!; try done; vm_compute.
  - apply held_by_step; [by apply Nat.leb_le|vm_compute; reflexivity].
  - apply held_by_step; [by apply Nat.leb_le|vm_compute; reflexivity].
  - apply held_by_step; [by apply Nat.leb_le|vm_compute; reflexivity].
Qed.
