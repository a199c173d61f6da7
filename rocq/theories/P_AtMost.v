(** A call takes effect at most once: C131.
    The vocabulary is in [MildSpec], [SpareSpec], [LedgerSpec], [WroteSpec] and [SeenSpec]; clients that share the
    data, with the map's locks, in [LockScripts], and tasks that share a memory client in [MemTasks].
    The store of the examples is the one of [P_Wrote]. *)
From Coq Require Import String.
From Verif Require Import Locks LockSpec LockScripts LockScriptSpec.
From Verif Require Import Bytes BytesFacts Utf8 Float64 Value CommandId Request RequestSpec Response RespContext WireSpec
  EngineSpec Metrics Prog Commands HistorySpec EngineProps ConcSpec Scripts LinSpec KeyLinSpec MomentSpec
  Client ClientSpec ClientProps MemTasks MemTaskSpec SeenSpec WroteSpec WroteFacts LedgerSpec SpareSpec LastingSpec MildSpec MemTaskFacts AtMostFacts P_Wrote.
From stdpp Require Import gmap list.
From Coq Require Import NArith ZArith Lia.

(** What holds after [n] steps of a schedule, and what the only call notices and changes there. *)
Definition stepped (scripts : list (list call)) (sched : list (nat * list value)) (n : nat) (P : lsystem -> bool) : bool :=
  match lsys_run one_shard (take n sched) (lbegin scripts a_store) with Some y => P y | None => false end.

Lemma notices scripts sched k n o : n <= length sched ->
  stepped scripts sched n (fun y => in_call y (0, 0) && all_clear y k && bool_decide (st_keys y.2 !! k = o)) = true ->
  noticed one_shard scripts a_store sched (0, 0) k n o.
Proof.
  intros Hn H. split; [done|]. unfold stepped in H. destruct (lsys_run _ _ _) as [y|]; [|done]. exists y.
  apply andb_prop in H as [[H1 H2]%andb_prop H3]. split_and!; [done|by apply in_call_running| |by apply bool_decide_eq_true in H3].
  intros cl Hcl Hh. unfold all_clear in H2. rewrite forallb_forall in H2.
  specialize (H2 cl (proj1 (elem_of_list_In _ _) Hcl)). by rewrite Hh, bool_decide_true in H2.
Qed.

Lemma writes scripts sched k n z :
  stepped scripts sched n (fun y => in_call y (0, 0) && has_lock y (0, 0) k) = true ->
  lsys_run one_shard (take n sched) (lbegin scripts a_store) = Some z -> writing one_shard z (0, 0) k.
Proof.
  intros H Hz. unfold stepped in H. rewrite Hz in H. clear Hz. apply andb_prop in H as [H3%in_call_running H4].
  destruct H3 as (cl & Hcl & Hd & _). unfold has_lock in H4. rewrite Hcl in H4. exists cl. split_and!; [done|done|].
  by apply bool_decide_eq_true in H4.
Qed.

Lemma replaces scripts sched k n n' o o' :
  Nat.leb n' (length sched) && Nat.ltb (S n) n' &&
  stepped scripts sched n (fun y => in_call y (0, 0) && all_clear y k && bool_decide (st_keys y.2 !! k = o)) &&
  stepped scripts sched n' (fun y => in_call y (0, 0) && all_clear y k && bool_decide (st_keys y.2 !! k = o')) &&
  forallb (fun m => stepped scripts sched m (fun y => in_call y (0, 0) && has_lock y (0, 0) k)) (seq (S n) (n' - S n)) = true ->
  replaced one_shard scripts a_store sched (0, 0) k n n' o o'.
Proof.
  intros [[[[H1%Nat.leb_le H2%Nat.ltb_lt]%andb_prop H3]%andb_prop H4]%andb_prop H5]%andb_prop.
  split; [lia|]. split; [apply notices; [lia|done]|]. split; [apply notices; [lia|done]|].
  intros m z Hm1 Hm2. apply writes. rewrite forallb_forall in H5. apply H5, in_seq. lia.
Qed.

(** C131 is not so of sets: a set of a key that is there, even the only call of all, takes the value away, puts the
    blank value there, and then the new one. *)
Definition set_scripts : list (list call) := map dispatches [[(env_std true, KSet (lit "n") (VInteger 7))]].
Definition set_schedule : list (nat * list value) := replicate 18 (0, []).

Theorem C131_refuted :
  exists sh scripts s0 sched x b c k n1 n1' n2 n2' n3 n3' r,
    scripts = [[c]] /\ room_for_all scripts s0 /\ lsys_run sh sched (lbegin scripts s0) = Some x /\
    call_at scripts b = Some c /\ arg (c_req c) 0 = Some k /\ ordinary k /\ lreturned x b r /\ n1' <= n2 /\ n2' <= n3 /\
    replaced sh scripts s0 sched b k n1 n1' (Some (VInteger 5)) None /\
    replaced sh scripts s0 sched b k n2 n2' None (Some (VInteger 0)) /\
    replaced sh scripts s0 sched b k n3 n3' (Some (VInteger 0)) (Some (VInteger 7)).
Proof.
  assert (Hdone : match lsys_run one_shard set_schedule (lbegin set_scripts a_store) with
    | Some x => match x.1 !! 0 with Some cl => match lc_done cl !! 0 with Some _ => True | None => False end | None => False end
    | None => False end) by (vm_compute; exact I).
  destruct (lsys_run one_shard set_schedule (lbegin set_scripts a_store)) as [x|] eqn:Hx; [|destruct Hdone].
  destruct (x.1 !! 0) as [cl|] eqn:Hcl; [|destruct Hdone]. destruct (lc_done cl !! 0) as [r|] eqn:Hr; [|destruct Hdone].
  eexists one_shard, set_scripts, a_store, set_schedule, x, (0, 0), _, (lit "n"), 1, 4, 7, 10, 10, 14, r.
  split; [vm_compute; reflexivity|]. split; [intros m; by destruct m|]. split; [exact Hx|]. clear Hx.
  split; [vm_compute; reflexivity|]. split; [reflexivity|].
  split; [split; [done|by intros [w [=]]]|]. split; [exists cl; by split|]. split; [lia|]. split; [lia|].
  split; [|split]; apply replaces; vm_compute; reflexivity.
Qed.
Print Assumptions C131_refuted.

(** C131: of any two changes that a call other than a rename makes, whatever keys they are of, one is mild, as in C130, or
    they are the same: a call takes effect once, apart from a set's removal and the blank value at a missing key.
    Missing from C131: that those are not made either. *)
Theorem C131_once_partial :
  forall sh scripts s0 sched x b c r k l n n' m m' o o' p p',
  room_for_all scripts s0 -> lsys_run sh sched (lbegin scripts s0) = Some x -> call_at scripts b = Some c ->
  lreturned x b r -> r_command (c_req c) <> CRename ->
  replaced sh scripts s0 sched b k n n' o o' -> replaced sh scripts s0 sched b l m m' p p' ->
  mild sh scripts s0 sched b c k n o o' \/ mild sh scripts s0 sched b c l m p p' \/
  (k = l /\ n = m /\ n' = m' /\ o = p /\ o' = p').
Proof. exact c131_once. Qed.
Print Assumptions C131_once_partial.

(** C131: a call that neither sets nor renames changes at most one key, and at most once, if it never finds the key missing that it
    adds to. *)
Theorem C131_adds :
  forall sh scripts s0 sched x b c r k l n n' m m' o o' p p',
  room_for_all scripts s0 -> lsys_run sh sched (lbegin scripts s0) = Some x -> call_at scripts b = Some c ->
  lreturned x b r -> r_command (c_req c) <> CRename -> r_command (c_req c) <> CSet ->
  (forall j i, adds c -> arg (c_req c) 0 = Some j -> ~ noticed sh scripts s0 sched b j i None) ->
  replaced sh scripts s0 sched b k n n' o o' -> o' <> o -> replaced sh scripts s0 sched b l m m' p p' -> p' <> p ->
  k = l /\ n = m /\ n' = m' /\ o = p /\ o' = p'.
Proof. exact c131_adds. Qed.
Print Assumptions C131_adds.

(** C131: and a change that is not mild is the last one that the call makes. *)
Theorem C131_last :
  forall sh scripts s0 sched x b c r k l n n' m m' o o' p p',
  room_for_all scripts s0 -> lsys_run sh sched (lbegin scripts s0) = Some x -> call_at scripts b = Some c ->
  lreturned x b r -> r_command (c_req c) <> CRename ->
  replaced sh scripts s0 sched b k n n' o o' -> ~ mild sh scripts s0 sched b c k n o o' ->
  replaced sh scripts s0 sched b l m m' p p' -> m' <= n'.
Proof. exact c131_last. Qed.
Print Assumptions C131_last.

(** C131: a call that changes one key, and succeeds, has made one change of it, from what it came upon to what it makes of
    that, as in C125; that is its last, and any other is mild. *)
Theorem C131_did :
  forall sh scripts s0 sched x b c k out,
  room_for_all scripts s0 -> lsys_run sh sched (lbegin scripts s0) = Some x -> call_at scripts b = Some c ->
  lreturned x b (COk out) -> changes_one (r_command (c_req c)) -> arg (c_req c) 0 = Some k ->
  exists n n' o o', replaced sh scripts s0 sched b k n n' o o' /\
    (o' = o \/ may_change sh scripts s0 sched b c k n o o') /\
    forall l m m' p p', replaced sh scripts s0 sched b l m m' p p' ->
      m' <= n' /\ (mild sh scripts s0 sched b c l m p p' \/ (l = k /\ m = n /\ m' = n' /\ p = o /\ p' = o')).
Proof. exact c131_did. Qed.
Print Assumptions C131_did.

(** C131: a rename changes its first key at most once, after that its second key at most once, and no other key. *)
Theorem C131_rename :
  forall sh scripts s0 sched x b c r k d,
  room_for_all scripts s0 -> lsys_run sh sched (lbegin scripts s0) = Some x -> call_at scripts b = Some c ->
  lreturned x b r -> r_command (c_req c) = CRename -> arg (c_req c) 0 = Some k -> arg (c_req c) 1 = Some d ->
  exists n1 n1' n2 n2', n1' <= n2 /\ forall l n n' o o', replaced sh scripts s0 sched b l n n' o o' ->
    o' = o \/ (l = k /\ n = n1 /\ n' = n1') \/ (l = d /\ n = n2 /\ n' = n2').
Proof. exact c131_rename. Qed.
Print Assumptions C131_rename.

(** C131: and so with tasks that share a memory client.  Missing from C131: that the mild changes are not made either. *)
Theorem C131_tasks_partial :
  forall sh tasks s0 sched x a e c r k l n n' m m' o o' p p',
  sendable tasks -> tasks_fit tasks s0 -> at_work sh tasks s0 sched = Some x ->
  task_call tasks a = Some (e, c) -> refused c = None -> got tasks x a r -> (forall k0 d, c <> KRename k0 d) ->
  task_replaced sh tasks s0 sched a k n n' o o' -> task_replaced sh tasks s0 sched a l m m' p p' ->
  task_mild sh tasks s0 sched a c k n o o' \/ task_mild sh tasks s0 sched a c l m p p' \/
  (k = l /\ n = m /\ n' = m' /\ o = p /\ o' = p').
Proof. exact c131_tasks. Qed.
Print Assumptions C131_tasks_partial.

(** C131: a call of such a task that neither sets nor renames changes something at most once, if it never finds the
    key missing that it adds to. *)
Theorem C131_tasks_adds :
  forall sh tasks s0 sched x a e c r k l n n' m m' o o' p p',
  sendable tasks -> tasks_fit tasks s0 -> at_work sh tasks s0 sched = Some x ->
  task_call tasks a = Some (e, c) -> refused c = None -> got tasks x a r -> (forall k0 d, c <> KRename k0 d) ->
  (forall j w, ~ sets_to c j w) -> (forall j t i, opens_with c j t -> ~ task_noticed sh tasks s0 sched a j i None) ->
  task_replaced sh tasks s0 sched a k n n' o o' -> o' <> o -> task_replaced sh tasks s0 sched a l m m' p p' -> p' <> p ->
  k = l /\ n = m /\ n' = m' /\ o = p /\ o' = p'.
Proof. exact c131_tasks_adds. Qed.
Print Assumptions C131_tasks_adds.

(** C131: and a change that is not mild is the last one that the call makes. *)
Theorem C131_tasks_last :
  forall sh tasks s0 sched x a e c r k l n n' m m' o o' p p',
  sendable tasks -> tasks_fit tasks s0 -> at_work sh tasks s0 sched = Some x ->
  task_call tasks a = Some (e, c) -> refused c = None -> got tasks x a r -> (forall k0 d, c <> KRename k0 d) ->
  task_replaced sh tasks s0 sched a k n n' o o' -> ~ task_mild sh tasks s0 sched a c k n o o' ->
  task_replaced sh tasks s0 sched a l m m' p p' -> m' <= n'.
Proof. exact c131_tasks_last. Qed.
Print Assumptions C131_tasks_last.

(** C131: a call of such a task that changes one key, and succeeds, has made one change of it, which is its last, and
    any other is mild. *)
Theorem C131_tasks_did :
  forall sh tasks s0 sched x a e c k w,
  sendable tasks -> tasks_fit tasks s0 -> at_work sh tasks s0 sched = Some x ->
  task_call tasks a = Some (e, c) -> changes_key c k -> refused c = None -> got tasks x a (ROk w) ->
  exists n n' o o', task_replaced sh tasks s0 sched a k n n' o o' /\
    (o' = o \/ task_may_change sh tasks s0 sched a e c k n o o') /\
    forall l m m' p p', task_replaced sh tasks s0 sched a l m m' p p' ->
      m' <= n' /\ (task_mild sh tasks s0 sched a c l m p p' \/ (l = k /\ m = n /\ m' = n' /\ p = o /\ p' = o')).
Proof. exact c131_tasks_did. Qed.
Print Assumptions C131_tasks_did.

(** C131: and a rename of such a task changes its first key at most once, after that its second key at most once, and no other key. *)
Theorem C131_tasks_rename :
  forall sh tasks s0 sched x a e c k d r,
  sendable tasks -> tasks_fit tasks s0 -> at_work sh tasks s0 sched = Some x ->
  task_call tasks a = Some (e, c) -> refused c = None -> got tasks x a r -> c = KRename k d ->
  exists n1 n1' n2 n2', n1' <= n2 /\ forall l n n' o o', task_replaced sh tasks s0 sched a l n n' o o' ->
    o' = o \/ (l = k /\ n = n1 /\ n' = n1') \/ (l = d /\ n = n2 /\ n' = n2').
Proof. exact c131_tasks_rename. Qed.
Print Assumptions C131_tasks_rename.

(** C131: and if it succeeds it has made exactly these two changes: it took a value away from the first key, and after
    that put it at the second. *)
Theorem C131_tasks_moved :
  forall sh tasks s0 sched x a e k d w,
  sendable tasks -> tasks_fit tasks s0 -> at_work sh tasks s0 sched = Some x ->
  task_call tasks a = Some (e, KRename k d) -> k <> [] -> d <> [] -> got tasks x a (ROk w) ->
  exists n n' i i' v o, n' <= i /\
    task_replaced sh tasks s0 sched a k n n' (Some v) None /\ task_replaced sh tasks s0 sched a d i i' o (Some v) /\
    forall l j j' p p', task_replaced sh tasks s0 sched a l j j' p p' ->
      p' = p \/ (l = k /\ j = n /\ j' = n' /\ p = Some v /\ p' = None) \/ (l = d /\ j = i /\ j' = i' /\ p = o /\ p' = Some v).
Proof. exact c131_tasks_moved. Qed.
Print Assumptions C131_tasks_moved.

(** An increment of a key that is there: it changes the key, and never finds it missing. *)
Definition add_scripts : list (list call) := map dispatches [[(env_std true, KIncrementInt (lit "n") (Some 2%Z))]].
Definition add_schedule : list (nat * list value) := replicate 9 (0, []).

Example C131_nonvacuous :
  room_for_all add_scripts a_store /\
  (exists x, lsys_run one_shard add_schedule (lbegin add_scripts a_store) = Some x /\ exists r, lreturned x (0, 0) r) /\
  (exists c, call_at add_scripts (0, 0) = Some c /\ r_command (c_req c) <> CRename /\ r_command (c_req c) <> CSet /\ adds c /\
     forall j i, adds c -> arg (c_req c) 0 = Some j -> ~ noticed one_shard add_scripts a_store add_schedule (0, 0) j i None) /\
  replaced one_shard add_scripts a_store add_schedule (0, 0) (lit "n") 1 5 (Some (VInteger 5)) (Some (VInteger 7)).
Proof.
  split; [intros m; by destruct m|]. split; [|split].
  - assert (Hdone : match lsys_run one_shard add_schedule (lbegin add_scripts a_store) with
      | Some x => match x.1 !! 0 with Some cl => match lc_done cl !! 0 with Some _ => True | None => False end | None => False end
      | None => False end) by (vm_compute; exact I).
    destruct (lsys_run one_shard add_schedule (lbegin add_scripts a_store)) as [x|] eqn:Hx; [|destruct Hdone].
    exists x. split; [reflexivity|]. clear Hx.
    destruct (x.1 !! 0) as [cl|] eqn:Hcl; [|destruct Hdone]. destruct (lc_done cl !! 0) as [r|] eqn:Hr; [|destruct Hdone].
    exists r, cl. by split.
  - eexists. split; [vm_compute; reflexivity|]. split; [discriminate|]. split; [discriminate|]. split; [exact I|].
    intros j i _ Hj (Hi & y & Hy & _ & _ & Hv).
    assert (Hall : forallb (fun i => stepped add_scripts add_schedule i (fun y => bool_decide (st_keys y.2 !! lit "n" <> None)))
      (seq 0 10) = true) by (vm_compute; reflexivity).
    rewrite forallb_forall in Hall. assert (Hin : In i (seq 0 10)) by (apply in_seq; change (length add_schedule) with 9 in Hi; lia).
    specialize (Hall i Hin). unfold stepped in Hall. rewrite Hy in Hall. clear Hy.
    apply bool_decide_eq_true in Hall. apply Hall. rewrite <-Hv. f_equal. change (Some (lit "n") = Some j) in Hj. congruence.
  - apply replaces. vm_compute. reflexivity.
Qed.

(** With the tasks of [P_Wrote]: an addition that changes a key once, and a rename that changes both of its keys. *)
Example C131_tasks_nonvacuous :
  sendable some_tasks /\ tasks_fit some_tasks a_store /\
  (exists x, at_work one_shard some_tasks a_store some_schedule = Some x /\
     got some_tasks x (1, 0) (ROk (RpValue (VInteger 15))) /\ got some_tasks x (0, 1) (ROk (RpBytes (lit "m")))) /\
  task_call some_tasks (1, 0) = Some (env_std true, KIncrementInt (lit "n") (Some 10%Z)) /\
  refused (KIncrementInt (lit "n") (Some 10%Z)) = None /\ (forall j w, ~ sets_to (KIncrementInt (lit "n") (Some 10%Z)) j w) /\
  task_replaced one_shard some_tasks a_store some_schedule (1, 0) (lit "n") 2 6 (Some (VInteger 5)) (Some (VInteger 15)) /\
  task_call some_tasks (0, 1) = Some (env_std true, KRename (lit "n") (lit "m")) /\
  refused (KRename (lit "n") (lit "m")) = None /\
  task_replaced one_shard some_tasks a_store some_schedule (0, 1) (lit "n") 32 35 (Some (VInteger 17)) None /\
  task_replaced one_shard some_tasks a_store some_schedule (0, 1) (lit "m") 35 38 None (Some (VInteger 17)).
Proof.
  destruct C124_tasks_nonvacuous as (H1 & H2 & _). split; [exact H1|]. split; [exact H2|]. clear H1 H2.
  assert (Hp : same_place some_tasks (0, 1) (0, 1)).
  { split; [done|]. eexists _, _, _, _. split_and!; [reflexivity|reflexivity|vm_compute; reflexivity|reflexivity]. }
  split; [|split; [reflexivity|split; [reflexivity|split; [by intros j w [[=]|[=]]|split; [|split; [reflexivity|split; [reflexivity|split]]]]]]].
  - assert (Hdone : match at_work one_shard some_tasks a_store some_schedule with
      | Some x => match x.1 !! 0, x.1 !! 1, some_tasks !! 0, some_tasks !! 1 with
        | Some cl, Some cl', Some h, Some h' =>
          results h' (lc_done cl') !! 0 = Some (ROk (RpValue (VInteger 15))) /\ results h (lc_done cl) !! 1 = Some (ROk (RpBytes (lit "m")))
        | _, _, _, _ => False end
      | None => False end) by (vm_compute; split; reflexivity).
    destruct (at_work one_shard some_tasks a_store some_schedule) as [x|] eqn:Hx; [|destruct Hdone]. exists x. split; [reflexivity|]. clear Hx.
    destruct (x.1 !! 0) as [cl|] eqn:Hcl; [|destruct Hdone]. destruct (x.1 !! 1) as [cl'|] eqn:Hcl'; [|destruct Hdone].
    destruct (some_tasks !! 0) as [h|] eqn:Hh; [|destruct Hdone]. destruct (some_tasks !! 1) as [h'|] eqn:Hh'; [|destruct Hdone].
    destruct Hdone as [Hd1 Hd2]. split; [exists h', cl'|exists h, cl]; split; [exact Hh'|split; [exact Hcl'|exact Hd1]|exact Hh|split; [exact Hcl|exact Hd2]].
  - apply C124_replaced_nonvacuous.
  - eapply replaced_tasks; [exact Hp|]. split; [lia|]. split; [|split].
    + apply noticed_by_step; [by apply Nat.leb_le|vm_compute; reflexivity].
    + apply noticed_by_step; [by apply Nat.leb_le|vm_compute; reflexivity].
    + intros m z H1 H2. assert (Hm : m = 33 \/ m = 34) by lia. destruct Hm as [->| ->]; apply writing_by_step; vm_compute; reflexivity.
  - eapply replaced_tasks; [exact Hp|]. split; [lia|]. split; [|split].
    + apply noticed_by_step; [by apply Nat.leb_le|vm_compute; reflexivity].
    + apply noticed_by_step; [by apply Nat.leb_le|vm_compute; reflexivity].
    + intros m z H1 H2. assert (Hm : m = 36 \/ m = 37) by lia. destruct Hm as [->| ->]; apply writing_by_step; vm_compute; reflexivity.
Qed.
