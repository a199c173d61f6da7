(** Clients that set the same key at the same time: C114.
    The vocabulary is in [SetRaceSpec]; clients that issue one call after another in [Scripts], and with the
    map's locks in [LockScripts]. *)
From Coq Require Import String.
From Verif Require Import Bytes BytesFacts Utf8 Float64 Value CommandId Request Response WireSpec
  RequestSpec EngineSpec Metrics Prog Commands HistorySpec EngineProps Locks LockSpec LockScripts LockScriptSpec
  Concurrent ConcSpec ConcFacts ConcProps Scripts LinSpec LinFacts KeyLinSpec KeyLin KeyLinFacts SetRaceSpec
  SetRaceFacts.
From stdpp Require Import gmap list.
From Coq Require Import NArith ZArith Lia.

Ltac asked := apply a_request_asks; [reflexivity|vm_compute; discriminate|vm_compute; reflexivity].
Ltac each_call := let c := fresh "c" in let Hc := fresh "Hc" in
  intros c Hc%issued_concat; cbn [concat app] in Hc;
  repeat (apply elem_of_cons in Hc as [->|Hc]); [..|by apply elem_of_nil in Hc].

(** The state and the clients of the examples: two set the key to a list, one then reads it, and one only
    reads it. *)
Definition example_store : store := store_of [(lit "l", VInteger 5); (lit "n", VInteger 5)].
Notation put k l := (ask CSet (Some KTList) (lit k :: l)) (only parsing).
Notation get k := (ask CGet None [lit k]) (only parsing).
Notation example_scripts :=
  [[put "l" [lit "x"]]; [put "l" [lit "y"; lit "z"]; get "l"]; [get "l"; put "n" [lit "w"]]] (only parsing).

Ltac roomy_all := let m := fresh in intros m; unfold example_store, store_of, count; cbn [st_counters];
  rewrite lookup_empty; vm_compute; reflexivity.

(** C114: when all calls have returned, the key holds the whole value that one successful Set was given and
    answered, and no successful Set began after that one had returned; or no Set succeeded, and the key
    holds what it held at the beginning. *)
Theorem C114_winner :
  forall k scripts s0 sched x,
  room_for_all scripts s0 -> envs_ok scripts -> ordinary k -> only_set k scripts ->
  sys_run sched (begin scripts s0) = Some x -> finished scripts x ->
  (forall a c, call_at scripts a = Some c -> set_of k c -> ~ returned x a CPanic) ->
  (exists a c v r, call_at scripts a = Some c /\ spelt k c v /\ returned x a r /\ is_ok r = true /\
     responds (c_env c) (c_res c) v r /\ st_keys x.2 !! k = Some v /\
     forall b c' r', call_at scripts b = Some c' -> set_of k c' -> returned x b r' -> is_ok r' = true ->
       ~ before scripts s0 sched a b) \/
  (st_keys x.2 !! k = st_keys s0 !! k /\
   forall a c r, call_at scripts a = Some c -> set_of k c -> returned x a r -> is_ok r = false).
Proof. exact c114_winner. Qed.
Print Assumptions C114_winner.

Example C114_winner_nonvacuous :
  room_for_all example_scripts example_store /\ envs_ok example_scripts /\ ordinary (lit "l") /\
  only_set (lit "l") example_scripts /\
  (exists c, issued example_scripts c /\ set_of (lit "l") c /\ spelt (lit "l") c (VList [lit "x"])) /\
  match sys_run (replicate 3 0 ++ replicate 7 1 ++ [0] ++ replicate 4 1 ++ replicate 3 0 ++ replicate 11 2)%nat
          (begin example_scripts example_store) with
  | Some x => map (fun cl => map is_ok (cl_done cl)) x.1 = [[true]; [true; true]; [true; true]] /\
              st_keys x.2 !! lit "l" = Some (VList [lit "x"])
  | None => False
  end.
Proof.
  split_and!; [roomy_all|each_call; apply env_std_ok|apply ordinary_dec; vm_compute; reflexivity| | |].
  - each_call; intros Hw.
    + exists (Some KTList), [lit "x"]. asked.
    + exists (Some KTList), [lit "y"; lit "z"]. asked.
    + exfalso. revert Hw. eapply not_may_write; [asked|vm_compute; reflexivity].
    + exfalso. revert Hw. eapply not_may_write; [asked|vm_compute; reflexivity].
    + exfalso. revert Hw. eapply not_may_write; [asked|vm_compute; reflexivity].
  - exists (put "l" [lit "x"]). split_and!; [by exists (0, 0)%nat|exists (Some KTList), [lit "x"]; asked|].
    exists (Some KTList), [lit "x"], KTList. split_and!; [asked|by right|reflexivity].
  - vm_compute. split_and!; reflexivity.
Qed.

(** C114: at every instant the key holds what it held at the beginning, nothing, the value of one of the Sets,
    or the empty value of that type; and every Get answers one of these. *)
Theorem C114_between :
  forall k scripts s0 sched x,
  room_for_all scripts s0 -> envs_ok scripts -> ordinary k -> only_set k scripts ->
  sys_run sched (begin scripts s0) = Some x ->
  may_hold k scripts s0 (st_keys x.2 !! k) /\
  forall a c l r, call_at scripts a = Some c -> asks (c_req c) CGet None (k :: l) -> returned x a r ->
    exists now, may_hold k scripts s0 now /\
      match now with
      | Some w => responds (c_env c) (c_res c) w r
      | None => r = CErr EKeyNonexistent (c_res c)
      end.
Proof. exact c114_between. Qed.
Print Assumptions C114_between.

(** The empty list, that no client has set, can be read. *)
Example C114_between_nonvacuous :
  match sys_run ([0; 0; 0; 0] ++ replicate 4 2)%nat (begin example_scripts example_store) with
  | Some x => st_keys x.2 !! lit "l" = Some (VList []) /\
              map (fun cl => cl_done cl) x.1 = [[]; []; [COk (resp_frame (env_std true) (RValue (VList [])))]]
  | None => False
  end.
Proof. vm_compute. split_and!; reflexivity. Qed.

(** C114: a Set answers the value it was given, or reports an argument that is not of its type, or reports
    that the key holds another type. *)
Theorem C114_outcomes :
  forall k scripts s0 sched x a c kt l r,
  room_for_all scripts s0 -> envs_ok scripts -> ordinary k -> only_set k scripts ->
  sys_run sched (begin scripts s0) = Some x ->
  call_at scripts a = Some c -> asks (c_req c) CSet kt (k :: l) -> returned x a r ->
  (exists v, spelt k c v /\ responds (c_env c) (c_res c) v r) \/
  (r = CErr EArgumentRetrieval (c_res c) /\ exists t, (kt = None \/ kt = Some t) /\ value_of t l = None) \/
  r = CErr EKeyTypeDifferent (c_res c).
Proof. exact c114_outcomes. Qed.
Print Assumptions C114_outcomes.

(** Two Sets of different types to a key that is not there: one of them is refused. *)
Example C114_outcomes_nonvacuous :
  match sys_run ([0; 0; 1; 1; 0; 0] ++ replicate 3 1 ++ replicate 3 0)%nat
          (begin [[put "new" [lit "x"]]; [ask CSet (Some KTString) [lit "new"; lit "y"]]] example_store) with
  | Some x => map (fun cl => cl_done cl) x.1 =
                [[COk (resp_frame (env_std true) (RValue (VList [lit "x"])))]; [CErr EKeyTypeDifferent []]] /\
              st_keys x.2 !! lit "new" = Some (VList [lit "x"])
  | None => False
  end.
Proof. vm_compute. split_and!; reflexivity. Qed.

(** C114: if all Sets of the key name the same type and their arguments are of it, all of them succeed and
    answer the value they were given. *)
Theorem C114_same_type :
  forall k scripts s0 t sched x,
  room_for_all scripts s0 -> envs_ok scripts -> ordinary k -> only_set k scripts ->
  (forall c kt l, issued scripts c -> asks (c_req c) CSet kt (k :: l) ->
     kt = Some t /\ is_Some (value_of t l)) ->
  sys_run sched (begin scripts s0) = Some x ->
  forall a c l r, call_at scripts a = Some c -> asks (c_req c) CSet (Some t) (k :: l) -> returned x a r ->
    exists v, value_of t l = Some v /\ responds (c_env c) (c_res c) v r.
Proof. exact c114_same_type. Qed.
Print Assumptions C114_same_type.

Example C114_same_type_nonvacuous :
  forall c kt l, issued example_scripts c -> asks (c_req c) CSet kt (lit "l" :: l) ->
    kt = Some KTList /\ is_Some (value_of KTList l).
Proof.
  intros c kt l Hc. revert c Hc kt l. each_call; intros kt l Hq.
  - assert (Ha : asks (c_req (put "l" [lit "x"])) CSet (Some KTList) [lit "l"; lit "x"]) by asked.
    destruct Hq as (_ & <- & Hcar), Ha as (_ & E & Hcar').
    pose proof (carries_unique _ _ _ Hcar Hcar') as [= ->]. split; [done|by eexists].
  - assert (Ha : asks (c_req (put "l" [lit "y"; lit "z"])) CSet (Some KTList) [lit "l"; lit "y"; lit "z"]) by asked.
    destruct Hq as (_ & <- & Hcar), Ha as (_ & E & Hcar').
    pose proof (carries_unique _ _ _ Hcar Hcar') as [= ->]. split; [done|by eexists].
  - by destruct Hq as (Hq & _).
  - by destruct Hq as (Hq & _).
  - assert (Ha : asks (c_req (put "n" [lit "w"])) CSet (Some KTList) [lit "n"; lit "w"]) by asked.
    destruct Hq as (_ & <- & Hcar), Ha as (_ & E & Hcar').
    by pose proof (carries_unique _ _ _ Hcar Hcar').
Qed.

(** C114, with the locks of the map: the same, as soon as nobody has the key locked for writing. *)
Theorem C114_locked :
  forall sh k scripts s0 lsched x,
  room_for_all scripts s0 -> envs_ok scripts -> ordinary k -> only_set k scripts ->
  lsys_run sh lsched (lbegin scripts s0) = Some x -> unlocked sh x k ->
  may_hold k scripts s0 (st_keys x.2 !! k) /\
  (Forall2 (fun sc cl => length (lc_done cl) = length sc) scripts x.1 ->
   (forall a c, call_at scripts a = Some c -> set_of k c -> ~ lreturned x a CPanic) ->
   (exists a c v r, call_at scripts a = Some c /\ spelt k c v /\ lreturned x a r /\ is_ok r = true /\
      responds (c_env c) (c_res c) v r /\ st_keys x.2 !! k = Some v /\
      forall b c' r', call_at scripts b = Some c' -> set_of k c' -> lreturned x b r' -> is_ok r' = true ->
        ~ lbefore sh scripts s0 lsched a b) \/
   (st_keys x.2 !! k = st_keys s0 !! k /\
    forall a c r, call_at scripts a = Some c -> set_of k c -> lreturned x a r -> is_ok r = false)).
Proof. exact c114_locked. Qed.
Print Assumptions C114_locked.

Example C114_locked_nonvacuous :
  match lsys_run (Shards (fun _ => 0%N) (fun _ => 0%N))
    (map (fun i => (i, [])) ([0; 1] ++ replicate 17 0 ++ replicate 25 1 ++ replicate 26 2)%nat)
    (lbegin example_scripts example_store) with
  | Some x => map (fun cl => map is_ok (lc_done cl)) x.1 = [[true]; [true; true]; [true; true]] /\
              st_keys x.2 !! lit "l" = Some (VList [lit "y"; lit "z"])
  | None => False
  end.
Proof. vm_compute. split_and!; reflexivity. Qed.
