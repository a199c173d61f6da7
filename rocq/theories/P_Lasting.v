(** What a call has left at a key stays there, for everyone, until another call changes it: C129.
    The vocabulary is in [LastingSpec], [SpareSpec], [LedgerSpec], [WroteSpec] and [SeenSpec]; tasks that share a
    memory client, with the map's locks, in [MemTasks]. *)
From Coq Require Import String.
From Verif Require Import Locks LockSpec LockScripts LockScriptSpec.
From Verif Require Import Bytes BytesFacts Utf8 Float64 Value CommandId Request RequestSpec Response RespContext WireSpec
  EngineSpec Metrics Prog Commands HistorySpec EngineProps ConcSpec Scripts LinSpec KeyLinSpec MomentSpec
  Client ClientSpec ClientProps MemTasks MemTaskSpec SeenSpec WroteSpec LedgerSpec SpareSpec LastingSpec LastingFacts.
From stdpp Require Import gmap list.
From Coq Require Import NArith ZArith Lia.

(** C129: once a call that came upon one thing at a key and left another has returned, and no other call that may
    change the key has run since it began, the key holds what the call left, whenever nobody is writing to its shard. *)
Theorem C129_left :
  forall sh tasks s0 sched a e c k n n' y r o o',
  sendable tasks -> tasks_fit tasks s0 -> task_call tasks a = Some (e, c) -> refused c = None ->
  n <= length sched -> at_work sh tasks s0 (take n sched) = Some y -> got tasks y a r ->
  task_acted sh tasks s0 (take n sched) a k o o' ->
  undisturbed sh tasks s0 sched a k n' ->
  lasts sh tasks s0 sched k n n' o'.
Proof. exact c129_left. Qed.
Print Assumptions C129_left.

(** C129: a get that begins while a value lasts, and returns while it lasts, returns it. *)
Theorem C129_read :
  forall sh tasks s0 sched k n n' y z b e r v,
  sendable tasks -> tasks_fit tasks s0 -> ordinary k -> sound v ->
  n <= n' -> n' <= length sched -> at_work sh tasks s0 (take n sched) = Some y ->
  at_work sh tasks s0 (take n' sched) = Some z ->
  lasts sh tasks s0 sched k n n' (Some v) ->
  task_call tasks b = Some (e, KGet k) -> ahead tasks y b -> got tasks z b r ->
  r = ROk (RpValue v).
Proof. exact c129_read. Qed.
Print Assumptions C129_read.

(** C129: so the key holds the value that a set put there, once the set has returned. *)
Theorem C129_set :
  forall sh tasks s0 sched a e c k w n n' y rp,
  sendable tasks -> tasks_fit tasks s0 -> task_call tasks a = Some (e, c) -> sets_to c k w -> ordinary k -> sound w ->
  n <= length sched -> at_work sh tasks s0 (take n sched) = Some y -> got tasks y a (ROk rp) ->
  undisturbed sh tasks s0 sched a k n' ->
  lasts sh tasks s0 sched k n n' (Some w).
Proof. exact c129_set. Qed.
Print Assumptions C129_set.

(** C129: and a get that begins after the set has returned, in whatever task, returns that value. *)
Theorem C129_set_get :
  forall sh tasks s0 sched a e c k w n n' y z rp b e' r,
  sendable tasks -> tasks_fit tasks s0 -> task_call tasks a = Some (e, c) -> sets_to c k w -> ordinary k -> sound w ->
  n <= n' -> n' <= length sched ->
  at_work sh tasks s0 (take n sched) = Some y -> at_work sh tasks s0 (take n' sched) = Some z ->
  got tasks y a (ROk rp) -> undisturbed sh tasks s0 sched a k n' ->
  task_call tasks b = Some (e', KGet k) -> ahead tasks y b -> got tasks z b r ->
  r = ROk (RpValue w).
Proof. exact c129_set_get. Qed.
Print Assumptions C129_set_get.

(** C129: the key holds the integer that an increment returned. *)
Theorem C129_add :
  forall sh tasks s0 sched a e k i n n' y rp,
  sendable tasks -> tasks_fit tasks s0 -> task_call tasks a = Some (e, KIncrementInt k i) -> i64_range (default 1%Z i) ->
  ordinary k -> n <= length sched -> at_work sh tasks s0 (take n sched) = Some y -> got tasks y a (ROk rp) ->
  undisturbed sh tasks s0 sched a k n' ->
  exists z, i64_range z /\ rp = RpValue (VInteger z) /\ lasts sh tasks s0 sched k n n' (Some (VInteger z)).
Proof. exact c129_add. Qed.
Print Assumptions C129_add.

(** C129: and a get that begins afterwards returns what the increment returned. *)
Theorem C129_add_get :
  forall sh tasks s0 sched a e k i n n' y z rp b e' r,
  sendable tasks -> tasks_fit tasks s0 -> task_call tasks a = Some (e, KIncrementInt k i) -> i64_range (default 1%Z i) ->
  ordinary k -> n <= n' -> n' <= length sched ->
  at_work sh tasks s0 (take n sched) = Some y -> at_work sh tasks s0 (take n' sched) = Some z ->
  got tasks y a (ROk rp) -> undisturbed sh tasks s0 sched a k n' ->
  task_call tasks b = Some (e', KGet k) -> ahead tasks y b -> got tasks z b r ->
  r = ROk rp.
Proof. exact c129_add_get. Qed.
Print Assumptions C129_add_get.

(** C129: whatever a set, append, increment or decrement returned is what the key holds, unless the value is one that
    responses cannot carry. *)
Theorem C129_returned :
  forall sh tasks s0 sched a e c k n n' y rp,
  sendable tasks -> tasks_fit tasks s0 -> task_call tasks a = Some (e, c) -> changes_key c k -> c <> KDelete k -> ordinary k ->
  n <= length sched -> at_work sh tasks s0 (take n sched) = Some y -> got tasks y a (ROk rp) ->
  undisturbed sh tasks s0 sched a k n' ->
  exists v, lasts sh tasks s0 sched k n n' (Some v) /\ (sound v -> rp = RpValue v).
Proof. exact c129_returned. Qed.
Print Assumptions C129_returned.

(** C129: and a get that begins afterwards returns the same. *)
Theorem C129_returned_get :
  forall sh tasks s0 sched a e c k n n' y z rp b e' r,
  sendable tasks -> tasks_fit tasks s0 -> task_call tasks a = Some (e, c) -> changes_key c k -> c <> KDelete k -> ordinary k ->
  n <= n' -> n' <= length sched ->
  at_work sh tasks s0 (take n sched) = Some y -> at_work sh tasks s0 (take n' sched) = Some z ->
  got tasks y a (ROk rp) -> undisturbed sh tasks s0 sched a k n' ->
  task_call tasks b = Some (e', KGet k) -> ahead tasks y b -> got tasks z b r ->
  exists v, lasts sh tasks s0 sched k n n' (Some v) /\ (sound v -> rp = RpValue v /\ r = ROk (RpValue v)).
Proof. exact c129_returned_get. Qed.
Print Assumptions C129_returned_get.

(** C129: a key that was deleted is not there. *)
Theorem C129_delete :
  forall sh tasks s0 sched a e k n n' y rp,
  sendable tasks -> tasks_fit tasks s0 -> task_call tasks a = Some (e, KDelete k) -> ordinary k ->
  n <= length sched -> at_work sh tasks s0 (take n sched) = Some y -> got tasks y a (ROk rp) ->
  undisturbed sh tasks s0 sched a k n' ->
  lasts sh tasks s0 sched k n n' None.
Proof. exact c129_delete. Qed.
Print Assumptions C129_delete.

(** C129: and a get that begins afterwards reports that it does not exist. *)
Theorem C129_delete_get :
  forall sh tasks s0 sched a e k n n' y z rp b e' r,
  sendable tasks -> tasks_fit tasks s0 -> task_call tasks a = Some (e, KDelete k) -> ordinary k ->
  n <= n' -> n' <= length sched ->
  at_work sh tasks s0 (take n sched) = Some y -> at_work sh tasks s0 (take n' sched) = Some z ->
  got tasks y a (ROk rp) -> undisturbed sh tasks s0 sched a k n' ->
  task_call tasks b = Some (e', KGet k) -> ahead tasks y b -> got tasks z b r ->
  r = RErr (CERunningCommand EKeyNonexistent).
Proof. exact c129_delete_get. Qed.
Print Assumptions C129_delete_get.

(** C129: and so with a rename that has returned: the key is not there, and its destination holds the value that the
    rename took away from the key. *)
Theorem C129_rename :
  forall sh tasks s0 sched a e k d n n' y rp,
  sendable tasks -> tasks_fit tasks s0 -> task_call tasks a = Some (e, KRename k d) -> k <> [] -> d <> [] -> k <> d ->
  n <= length sched -> at_work sh tasks s0 (take n sched) = Some y -> got tasks y a (ROk rp) ->
  exists m m' v, task_replaced sh tasks s0 sched a k m m' (Some v) None /\
    (undisturbed sh tasks s0 sched a k n' -> lasts sh tasks s0 sched k n n' None) /\
    (undisturbed sh tasks s0 sched a d n' -> lasts sh tasks s0 sched d n n' (Some v)).
Proof. exact c129_rename. Qed.
Print Assumptions C129_rename.

(** One task sets a key that another has increased before; a third one reads it, while a fourth one increases and
    deletes another key of the same shard. *)
Definition one_shard : shards := Shards (fun _ => 0%N) (fun _ => 0%N).
Definition the_store : store := store_of [(lit "k", VInteger 1); (lit "n", VInteger 5)].
Definition the_tasks : list task :=
  [[(env_std true, KSet (lit "k") (VInteger 7))];
   [(env_std true, KGet (lit "k"))];
   [(env_std true, KIncrementInt (lit "n") (Some 2%Z)); (env_std true, KDelete (lit "n"))];
   [(env_std true, KIncrementInt (lit "k") (Some 3%Z))]].
Definition the_schedule : list (nat * list value) :=
  map (fun i => (i, [])) (replicate 9 3 ++ [2] ++ replicate 18 0 ++ [1] ++ replicate 16 2 ++ replicate 7 1)%nat.
Definition after (n : nat) (P : lsystem -> bool) : bool :=
  match at_work one_shard the_tasks the_store (take n the_schedule) with Some y => P y | None => false end.
Definition not_yet (i : nat) (y : lsystem) : bool :=
  match y.1 !! i with Some cl => Nat.eqb (lbegun cl) 0 | None => false end.
Definition came_back (i : nat) (y : lsystem) : bool :=
  match y.1 !! i with Some cl => match lc_done cl with [] => false | _ => true end | None => false end.

Lemma not_yet_ahead i y h : the_tasks !! i = Some h -> not_yet i y = true -> ahead the_tasks y (i, 0).
Proof.
  intros Hh H. unfold not_yet in H. destruct (y.1 !! i) as [cl|] eqn:Hcl; [|discriminate H].
  apply Nat.eqb_eq in H. exists h, cl. split; [exact Hh|]. split; [exact Hcl|]. rewrite H. apply Nat.le_0_l.
Qed.

Lemma the_set_undisturbed : undisturbed one_shard the_tasks the_store the_schedule (0, 0) (lit "k") 52.
Proof.
  intros m y b e c Hm Hy Hne Hc Ht Hr.
  assert (Hall : forallb (fun m => after m (fun y => not_yet 0 y || came_back 3 y)) (seq 0 53) = true) by (vm_compute; reflexivity).
  rewrite forallb_forall in Hall. specialize (Hall m). rewrite in_seq in Hall. specialize (Hall ltac:(lia)).
  unfold after in Hall. rewrite Hy in Hall. clear Hy. apply orb_prop in Hall as [Hall|Hall].
  { eapply not_yet_ahead; [reflexivity|exact Hall]. }
  exfalso. destruct b as [i j]. unfold task_call in Hc. cbn [fst snd] in Hc.
  assert (Hin : (i, j) = (3, 0)).
  { unfold task_may_touch, sets_to, opens_with in Ht.
    destruct i as [|[|[|[|i]]]]; cbn in Hc; try discriminate Hc; destruct j as [|[|j]]; cbn in Hc; try discriminate Hc;
      injection Hc as <- <-; try (by destruct Hne); try reflexivity; exfalso;
      destruct Ht as [[w [[=]|[=]]]|[[t Ht]|[[=]|[[d [=]]|[k0 [=]]]]]]; try exact Ht; destruct Ht as [[=] _]. }
  injection Hin as -> ->. destruct Hr as [_ Hr]. unfold came_back in Hall.
  destruct (y.1 !! 3) as [cl|] eqn:Hcl; [|discriminate Hall]. destruct (lc_done cl) as [|q l] eqn:Hd; [discriminate Hall|].
  eapply Hr. eexists _, cl. split; [reflexivity|]. split; [exact Hcl|]. rewrite Hd. reflexivity.
Qed.

Example C129_nonvacuous :
  sendable the_tasks /\ tasks_fit the_tasks the_store /\ ordinary (lit "k") /\ sound (VInteger 7) /\
  task_call the_tasks (0, 0) = Some (env_std true, KSet (lit "k") (VInteger 7)) /\
  task_call the_tasks (1, 0) = Some (env_std true, KGet (lit "k")) /\
  28 <= 52 /\ 52 <= length the_schedule /\
  (exists y, at_work one_shard the_tasks the_store (take 28 the_schedule) = Some y /\
     got the_tasks y (0, 0) (ROk (RpValue (VInteger 7))) /\ ahead the_tasks y (1, 0)) /\
  (exists z, at_work one_shard the_tasks the_store (take 52 the_schedule) = Some z /\
     got the_tasks z (1, 0) (ROk (RpValue (VInteger 7))) /\
     got the_tasks z (2, 1) (ROk (RpBytes (lit "n"))) /\ got the_tasks z (3, 0) (ROk (RpValue (VInteger 4)))) /\
  undisturbed one_shard the_tasks the_store the_schedule (0, 0) (lit "k") 52.
Proof.
  assert (Hgot : forall n a r,
      match at_work one_shard the_tasks the_store (take n the_schedule) with
      | Some y => match the_tasks !! a.1, y.1 !! a.1 with
        | Some h, Some cl => results h (lc_done cl) !! a.2 = Some r | _, _ => False end
      | None => False
      end ->
    forall y, at_work one_shard the_tasks the_store (take n the_schedule) = Some y -> got the_tasks y a r).
  { intros n a r H y Hy. rewrite Hy in H. clear Hy.
    destruct (the_tasks !! a.1) as [h|] eqn:Hh; [|destruct H]. destruct (y.1 !! a.1) as [cl|] eqn:Hcl; [|destruct H].
    exists h, cl. split; [exact Hh|]. split; [exact Hcl|]. exact H. }
  assert (Hthere : forall n, after n (fun _ => true) = true ->
    exists y, at_work one_shard the_tasks the_store (take n the_schedule) = Some y).
  { intros n H. unfold after in H. destruct (at_work _ _ _ _) as [y|]; [by exists y|discriminate H]. }
  split; [|split; [|split; [|split; [|split; [|split; [|split; [|split; [|split; [|split]]]]]]]]].
  - intros e c [[i j] H]. unfold task_call in H. cbn [fst snd] in H.
    destruct i as [|[|[|[|i]]]]; cbn in H; try discriminate H; destruct j as [|[|j]]; cbn in H; try discriminate H;
      injection H as <- <-; (split; [apply env_std_ok|vm_compute; discriminate]).
  - intros m. by destruct m.
  - split; [done|]. by intros [r [=]].
  - apply ClientFacts.sound_int. done.
  - reflexivity.
  - reflexivity.
  - by apply Nat.leb_le.
  - by apply Nat.leb_le.
  - destruct (Hthere 28 ltac:(vm_compute; reflexivity)) as [y Hy]. exists y. split; [exact Hy|]. split.
    + eapply (Hgot 28); [vm_compute; reflexivity|exact Hy].
    + assert (H : after 28 (not_yet 1) = true) by (vm_compute; reflexivity). unfold after in H. rewrite Hy in H. clear Hy.
      eapply not_yet_ahead; [reflexivity|exact H].
  - destruct (Hthere 52 ltac:(vm_compute; reflexivity)) as [z Hz]. exists z. split; [exact Hz|].
    split; [|split]; (eapply (Hgot 52); [vm_compute; reflexivity|exact Hz]).
  - exact the_set_undisturbed.
Qed.
