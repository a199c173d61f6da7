(** Clients that delete and rename the same key at the same time: C115; and a rename that destroys a value (C53).
    The vocabulary is in [TakeRaceSpec]; clients that issue one call after another in [Scripts], and with the
    map's locks in [LockScripts]. *)
From Coq Require Import String.
From Verif Require Import Bytes BytesFacts Utf8 Float64 Value CommandId Request Response WireSpec
  RequestSpec EngineSpec Metrics Prog Commands HistorySpec EngineProps Locks LockSpec LockScripts LockScriptSpec
  Concurrent ConcSpec ConcFacts ConcProps Scripts LinSpec LinFacts KeyLinSpec KeyLin KeyLinFacts SetRaceSpec
  TakeRaceSpec TakeRaceFacts.
From stdpp Require Import gmap list.
From Coq Require Import NArith ZArith Lia.

Ltac asked := apply a_request_asks; [reflexivity|vm_compute; discriminate|vm_compute; reflexivity].
Ltac each_call := let c := fresh "c" in let Hc := fresh "Hc" in
  intros c Hc%issued_concat; cbn [concat app] in Hc;
  repeat (apply elem_of_cons in Hc as [->|Hc]); [..|by apply elem_of_nil in Hc].

(** The state and the clients of the examples: two rename the key, to different names, one deletes it, and
    one renames it to a name that is in use. *)
Definition example_store : store := store_of [(lit "a", VInteger 5); (lit "n", VInteger 6)].
Notation move a b := (ask CRename None [lit a; lit b]) (only parsing).
Notation del k := (ask CDelete None [lit k]) (only parsing).
Notation get k := (ask CGet None [lit k]) (only parsing).
Notation example_scripts :=
  [[move "a" "b"]; [get "c"; move "a" "c"]; [del "a"]; [move "a" "n"; get "b"]] (only parsing).

Ltac roomy_all := let m := fresh in intros m; unfold example_store, store_of, count; cbn [st_counters];
  rewrite lookup_empty; vm_compute; reflexivity.

(** C115: of the calls that delete a key or rename it, at most one takes what was there.  Until then the key is
    as it was, and after that it is gone for good.  The call that took it answers the deleted or the new
    name; every other that returns reports that there was nothing to take, and then it was not over before
    that one began, or that its new name was in use.  The value is then at the new name, unless other
    calls change that name, and at no other of these names. *)
Theorem C115_one :
  forall k scripts s0 v0 sched x,
  room_for_all scripts s0 -> envs_ok scripts -> only_taken k scripts -> st_keys s0 !! k = Some v0 ->
  sys_run sched (begin scripts s0) = Some x ->
  exists won : option (nat * nat),
  st_keys x.2 !! k = match won with None => Some v0 | Some _ => None end /\
  (forall w, won = Some w -> exists c, call_at scripts w = Some c /\ takes k c) /\
  (forall a c r, call_at scripts a = Some c -> takes k c -> returned x a r ->
     if decide (won = Some a) then answers_name k c r
     else reports_loss k scripts s0 (before scripts s0 sched) won a c r) /\
  (forall b, b <> k -> only_through k b scripts ->
     st_keys x.2 !! b = st_keys s0 !! b \/
     exists w c, won = Some w /\ call_at scripts w = Some c /\ sent_to k b c /\ st_keys x.2 !! b = Some v0) /\
  (forall w c b r, won = Some w -> call_at scripts w = Some c -> b <> k -> sent_to k b c ->
     only_through k b scripts -> returned x w r -> st_keys x.2 !! b = Some v0).
Proof. exact c115_one. Qed.
Print Assumptions C115_one.

Example C115_nonvacuous :
  room_for_all example_scripts example_store /\ envs_ok example_scripts /\
  only_taken (lit "a") example_scripts /\ st_keys example_store !! lit "a" = Some (VInteger 5) /\
  only_through (lit "a") (lit "b") example_scripts /\ only_through (lit "a") (lit "c") example_scripts /\
  match sys_run ([0; 0; 0] ++ replicate 11 1 ++ replicate 3 0 ++ replicate 4 2 ++ replicate 8 3)%nat
          (begin example_scripts example_store) with
  | Some x =>
      map cl_done x.1 =
        [[CErr EKeyNonexistent []];
         [CErr EKeyNonexistent []; COk (resp_frame (env_std true) (RValue (VBytes (lit "c"))))];
         [CErr EPreconditionFailed []]; [CErr EKeyNonexistent []; CErr EKeyNonexistent []]] /\
      st_keys x.2 !! lit "a" = None /\ st_keys x.2 !! lit "b" = None /\
      st_keys x.2 !! lit "c" = Some (VInteger 5)
  | None => False
  end.
Proof.
  assert (Hm : forall b, lit b <> lit "a" -> forall c, c = move "a" b ->
    asks (c_req c) CRename None [lit "a"; lit b] -> takes (lit "a") c).
  { intros b Hb c _ Hq. right. exists (lit b). split; [done|]. by exists []. }
  split_and!; [roomy_all|each_call; apply env_std_ok| |reflexivity| | |].
  - each_call; intros Hw.
    + by apply (Hm "b"%string); [| |asked].
    + exfalso. revert Hw. eapply not_may_write; [asked|vm_compute; reflexivity].
    + by apply (Hm "c"%string); [| |asked].
    + left. exists []. asked.
    + by apply (Hm "n"%string); [| |asked].
    + exfalso. revert Hw. eapply not_may_write; [asked|vm_compute; reflexivity].
  - each_call; intros Hw; first [by apply (Hm "b"%string); [| |asked]|
      exfalso; revert Hw; eapply not_may_write; [asked|vm_compute; reflexivity]].
  - each_call; intros Hw; first [by apply (Hm "c"%string); [| |asked]|
      exfalso; revert Hw; eapply not_may_write; [asked|vm_compute; reflexivity]].
  - vm_compute. split_and!; reflexivity.
Qed.

(** C115, with the locks of the map: the same, for the keys that nobody has locked for writing. *)
Theorem C115_locked :
  forall sh k scripts s0 v0 lsched x,
  room_for_all scripts s0 -> envs_ok scripts -> only_taken k scripts -> st_keys s0 !! k = Some v0 ->
  lsys_run sh lsched (lbegin scripts s0) = Some x ->
  exists won : option (nat * nat),
  (unlocked sh x k -> st_keys x.2 !! k = match won with None => Some v0 | Some _ => None end) /\
  (forall w, won = Some w -> exists c, call_at scripts w = Some c /\ takes k c) /\
  (forall a c r, call_at scripts a = Some c -> takes k c -> lreturned x a r ->
     if decide (won = Some a) then answers_name k c r
     else reports_loss k scripts s0 (lbefore sh scripts s0 lsched) won a c r) /\
  (forall b, b <> k -> only_through k b scripts -> unlocked sh x b ->
     st_keys x.2 !! b = st_keys s0 !! b \/
     exists w c, won = Some w /\ call_at scripts w = Some c /\ sent_to k b c /\ st_keys x.2 !! b = Some v0) /\
  (forall w c b r, won = Some w -> call_at scripts w = Some c -> b <> k -> sent_to k b c ->
     only_through k b scripts -> lreturned x w r -> unlocked sh x b -> st_keys x.2 !! b = Some v0).
Proof. exact c115_locked. Qed.
Print Assumptions C115_locked.

Example C115_locked_nonvacuous :
  match lsys_run (Shards (fun _ => 0%N) (fun _ => 0%N))
    (map (fun i => (i, [])) ([0; 1] ++ replicate 8 2 ++ replicate 7 0)%nat)
    (lbegin [[move "a" "b"]; [move "a" "c"]; [del "a"]] example_store) with
  | Some x => map (fun cl => map is_ok (lc_done cl)) x.1 = [[false]; []; [true]] /\
              st_keys x.2 !! lit "a" = None /\ st_keys x.2 !! lit "b" = None
  | None => False
  end.
Proof. vm_compute. split_and!; reflexivity. Qed.

(** C53 is false in another way: of two renames to the same name, which was free, both succeed, and one of the
    two values is nowhere any more. *)
Theorem C53_refuted_lost :
  exists cs s0 a a' b v v' sched ts s r1 r2,
    cs = [ask CRename None [a; b]; ask CRename None [a'; b]] /\
    asks (c_req (ask CRename None [a; b])) CRename None [a; b] /\
    asks (c_req (ask CRename None [a'; b])) CRename None [a'; b] /\
    st_keys s0 !! a = Some v /\ st_keys s0 !! a' = Some v' /\ v <> v' /\ st_keys s0 !! b = None /\
    reaches cs s0 sched ts s /\ all_returned ts [COk r1; COk r2] /\
    forall k, st_keys s !! k <> Some v.
Proof.
  set (cs := [move "a" "b"; move "n" "b"]).
  set (sched := [0; 0; 1; 1; 0; 1; 0; 1; 0; 1]%nat).
  exists cs, example_store, (lit "a"), (lit "n"), (lit "b"), (VInteger 5), (VInteger 6), sched,
    (after cs example_store sched).1, (after cs example_store sched).2.
  eexists _, _. split_and!; [done|asked|asked|reflexivity|reflexivity|done|reflexivity| | |].
  - apply reaches_after. vm_compute. reflexivity.
  - unfold all_returned. vm_compute. reflexivity.
  - intros k H. assert (Hk : map_to_list (st_keys (after cs example_store sched).2) = [(lit "b", VInteger 6)])
      by (vm_compute; reflexivity).
    apply elem_of_map_to_list in H. rewrite Hk in H. apply elem_of_list_singleton in H. discriminate.
Qed.
Print Assumptions C53_refuted_lost.
