(** Properties of sequences of calls on the store with its locks: C89, and C74, C85 - C88 with the locks.
    The vocabulary is in [LockScriptSpec], [KeyLinSpec], [LinSpec] and [ConcSpec]; the locks in [Locks]. *)
From Coq Require Import String.
From Verif Require Import Bytes BytesFacts Utf8 Float64 Value CommandId
  Request Response RespContext Metrics Prog Commands EngineSpec WireSpec RequestSpec
  HistorySpec EngineProps Concurrent ConcSpec ConcFacts ConcProps ConcExact Scripts LinSpec
  LinFacts KeyLinSpec KeyLin KeyLinFacts Locks LockSpec LockScripts LockScriptSpec LockScriptFacts.
From stdpp Require Import gmap list.
From Coq Require Import NArith ZArith.

Ltac asked := apply a_request_asks; [reflexivity|vm_compute; discriminate|vm_compute; reflexivity].
Ltac each_call := let c := fresh "c" in let Hc := fresh "Hc" in
  intros c Hc%issued_concat; cbn [concat app] in Hc;
  repeat (apply elem_of_cons in Hc as [->|Hc]); [..|by apply elem_of_nil in Hc].

(** The state of the examples. *)
Definition example_store : store :=
  store_of [(lit "n", VInteger 40); (lit "a", VInteger 5); (lit "l", VList [lit "x"])].
Ltac roomy_all := let m := fresh in intros m; unfold example_store, store_of, count; cbn [st_counters];
  rewrite lookup_empty; vm_compute; reflexivity.

(** All keys in one shard. *)
Definition one_shard : shards := Shards (fun _ => 0%N) (fun _ => 0%N).

Notation incr k := (ask CIncrement None [lit k]) (only parsing).
Notation get k := (ask CGet None [lit k]) (only parsing).
Notation del k := (ask CDelete None [lit k]) (only parsing).
Notation push k l := (ask CAppend (Some KTList) (lit k :: l)) (only parsing).

(** C89: whatever the clients do with the store and its locks, some schedule of atomic steps does the
    same: at every instant the same calls have begun and the same have returned with the same outcomes,
    and what is at every key that nobody has locked for writing is the same. *)
Theorem C89_refines :
  forall sh scripts s0 lsched x,
  lsys_run sh lsched (lbegin scripts s0) = Some x ->
  exists (sched : list nat) (f : nat -> nat),
    f (length lsched) = length sched /\ (forall n m, n <= m -> f n <= f m) /\
    sublist sched (map fst lsched) /\
    forall n x, n <= length lsched -> lsys_run sh (take n lsched) (lbegin scripts s0) = Some x ->
      exists y, sys_run (take (f n) sched) (begin scripts s0) = Some y /\
        Forall2 same_client x.1 y.1 /\
        (forall k, unlocked sh x k -> st_keys x.2 !! k = st_keys y.2 !! k) /\
        (Forall (lfree sh) x.1 -> x.2 = y.2).
Proof. exact c89. Qed.
Print Assumptions C89_refines.

(** C89: a client that has a lock can always go on, and when nobody has one, so can every client that
    has not finished. *)
Theorem C89_no_deadlock :
  forall sh scripts s0 lsched x i cl,
  lsys_run sh lsched (lbegin scripts s0) = Some x -> x.1 !! i = Some cl ->
  (~ lfree sh cl -> forall mid, exists y, lsys_step sh i mid x = Some y) /\
  (Forall (lfree sh) x.1 -> ~ lfinished cl -> forall mid, exists y, lsys_step sh i mid x = Some y).
Proof. exact c89_no_deadlock. Qed.
Print Assumptions C89_no_deadlock.

(** C74 with the locks. *)
Theorem C74_locked :
  forall sh scripts s0 lsched x,
  room_for_all scripts s0 -> simple scripts s0 -> lsys_run sh lsched (lbegin scripts s0) = Some x ->
  lordered sh scripts s0 lsched (lexplains sh scripts s0).
Proof. exact c74_locked. Qed.
Print Assumptions C74_locked.

(** C85 with the locks. *)
Theorem C85_locked :
  forall sh k scripts s0 lsched x,
  room_for_all scripts s0 -> simple_at k scripts s0 -> lsys_run sh lsched (lbegin scripts s0) = Some x ->
  lordered sh scripts s0 lsched (lexplains_at sh k scripts s0).
Proof. exact c85_locked. Qed.
Print Assumptions C85_locked.

(** C86 with the locks. *)
Theorem C86_locked :
  forall sh k scripts s0 z0 lsched x,
  room_for_all scripts s0 -> ordinary k -> st_keys s0 !! k = Some (VInteger z0) ->
  i64_range z0 -> i64_range (z0 + Z.of_nat (length (concat scripts))) ->
  (forall c, issued scripts c ->
     (env_ok (c_env c) /\ adds_int c k 1) \/ ~ may_write (c_req c) k) ->
  lsys_run sh lsched (lbegin scripts s0) = Some x ->
  exists out : list (nat * nat), NoDup out /\
  (forall a, a ∈ out -> exists c, call_at scripts a = Some c /\ adds_int c k 1) /\
  (forall a c r, call_at scripts a = Some c -> adds_int c k 1 -> lreturned x a r ->
     exists i, out !! i = Some a /\
       responds (c_env c) (c_res c) (VInteger (z0 + 1 + Z.of_nat i)) r) /\
  (forall i j a b, out !! i = Some a -> out !! j = Some b -> lbefore sh scripts s0 lsched a b -> i < j) /\
  (unlocked sh x k -> st_keys x.2 !! k = Some (VInteger (z0 + Z.of_nat (length out)))).
Proof. exact c86_locked. Qed.
Print Assumptions C86_locked.

(** C87 with the locks: no append is torn although the value is changed in place. *)
Theorem C87_locked :
  forall sh k scripts s0 t v0 lsched x,
  room_for_all scripts s0 -> ordinary k -> st_keys s0 !! k = Some v0 -> kind v0 = t ->
  is_Some (append_to v0 []) ->
  (forall c, issued scripts c ->
     (env_ok (c_env c) /\ exists l, appends c k t l /\ is_Some (append_to v0 l)) \/
     ~ may_write (c_req c) k) ->
  lsys_run sh lsched (lbegin scripts s0) = Some x ->
  exists (out : list (nat * nat)) (ls : list (list bytes)), NoDup out /\
  Forall2 (fun a l => exists c, call_at scripts a = Some c /\ appends c k t l) out ls /\
  (forall a c l r, call_at scripts a = Some c -> appends c k t l -> lreturned x a r ->
     exists i v, out !! i = Some a /\ append_to v0 (concat (take (S i) ls)) = Some v /\
       responds (c_env c) (c_res c) v r) /\
  (forall i j a b, out !! i = Some a -> out !! j = Some b -> lbefore sh scripts s0 lsched a b -> i < j) /\
  exists v, append_to v0 (concat ls) = Some v /\ (unlocked sh x k -> st_keys x.2 !! k = Some v).
Proof. exact c87_locked. Qed.
Print Assumptions C87_locked.

(** C88 with the locks. *)
Theorem C88_locked :
  forall sh k scripts s0 v0 lsched x,
  room_for_all scripts s0 -> st_keys s0 !! k = Some v0 ->
  (forall c, issued scripts c -> (env_ok (c_env c) /\ deletes c k) \/ ~ may_write (c_req c) k) ->
  lsys_run sh lsched (lbegin scripts s0) = Some x ->
  exists won : option (nat * nat),
  (unlocked sh x k -> st_keys x.2 !! k = match won with None => Some v0 | Some _ => None end) /\
  (forall b, won = Some b -> exists c, call_at scripts b = Some c /\ deletes c k) /\
  (forall a c r, call_at scripts a = Some c -> deletes c k -> lreturned x a r ->
     exists b, won = Some b /\ ~ lbefore sh scripts s0 lsched a b /\
       if decide (a = b) then responds (c_env c) (c_res c) (VBytes k) r
       else r = CErr EPreconditionFailed (c_res c)).
Proof. exact c88_locked. Qed.
Print Assumptions C88_locked.

(** A run in which an update passes through a torn value while another client waits for the lock. *)
Definition example_scripts : list (list call) :=
  [[push "l" [lit "a"; lit "b"]; incr "n"]; [push "l" [lit "c"]; incr "n"]].
Definition example_sched : list (nat * list value) :=
  map (fun i => (i, [VList [lit "?"]])) [0; 0; 1; 0; 0; 0; 0; 1; 1; 0; 0; 1; 1; 0; 0; 1; 1; 1; 0; 0; 0; 1; 0; 0; 0; 0; 1; 0; 1; 1; 1; 1; 1; 1; 0; 1; 0; 1; 1; 1]%nat.

Example C89_nonvacuous :
  match lsys_run one_shard (take 5 example_sched) (lbegin example_scripts example_store) with
  | Some x => st_keys x.2 !! lit "l" = Some (VList [lit "?"]) /\
      lsys_step one_shard 1 [] x = None /\
      map lc_done x.1 = [[]; []]
  | None => False
  end /\
  match lsys_run one_shard example_sched (lbegin example_scripts example_store) with
  | Some x => map (fun cl => map is_ok (lc_done cl)) x.1 = [[true; true]; [true; true]] /\
      Forall lfinished x.1 /\
      st_keys x.2 !! lit "l" = Some (VList [lit "x"; lit "a"; lit "b"; lit "c"]) /\
      st_keys x.2 !! lit "n" = Some (VInteger 42)
  | None => False
  end.
Proof. vm_compute. split_and!; try reflexivity. repeat constructor. Qed.

(** It meets the hypotheses of the theorems above. *)
Example C87_locked_nonvacuous :
  room_for_all example_scripts example_store /\ ordinary (lit "l") /\
  st_keys example_store !! lit "l" = Some (VList [lit "x"]) /\
  simple example_scripts example_store /\
  simple_at (lit "l") example_scripts example_store /\
  (forall c, issued example_scripts c ->
     (env_ok (c_env c) /\ exists l, appends c (lit "l") KTList l /\ is_Some (append_to (VList [lit "x"]) l)) \/
     ~ may_write (c_req c) (lit "l")) /\
  (forall c, issued example_scripts c -> (env_ok (c_env c) /\ adds_int c (lit "n") 1) \/
     ~ may_write (c_req c) (lit "n")).
Proof.
  assert (Ha : forall l, asks (c_req (push "l" l)) CAppend (Some KTList) (lit "l" :: l) ->
    env_ok (c_env (push "l" l)) /\ exists l', appends (push "l" l) (lit "l") KTList l' /\
      is_Some (append_to (VList [lit "x"]) l')).
  { intros l Hl. split; [apply env_std_ok|]. exists l. split; [exact Hl|]. by eexists. }
  assert (Hi : adds_int (incr "n") (lit "n") 1).
  { exists CIncrement, None, [lit "n"]. split; [asked|]. left. repeat split; [done|]. by exists []. }
  split_and!; [roomy_all|apply ordinary_dec; vm_compute; reflexivity|reflexivity| | | |].
  - each_call; right; (split; [done|]).
    all: intros k Hk; vm_compute in Hk; injection Hk as <-; (split; [by eexists|]); each_call; done.
  - each_call.
    all: split; [|intros Hu Hk; vm_compute in Hk; try done; (split; [by eexists|]); clear;
      (each_call; vm_compute; done)].
    1, 3: left; split_and!; [done|done|by right].
    all: right; eapply not_may_write; [asked|vm_compute; reflexivity].
  - each_call; [left; apply Ha; asked|right|left; apply Ha; asked|right];
      (eapply not_may_write; [asked|vm_compute; reflexivity]).
  - each_call; [right|left; split; [apply env_std_ok|exact Hi]|right|left; split; [apply env_std_ok|exact Hi]];
      (eapply not_may_write; [asked|vm_compute; reflexivity]).
Qed.
