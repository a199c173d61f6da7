(** Properties of the calls about one key: C85 - C88.
    The vocabulary is in [KeyLinSpec], [LinSpec], [ConcSpec] and [HistorySpec]; clients that issue one
    call after another in [Scripts]. *)
From Coq Require Import String.
From Verif Require Import Bytes BytesFacts Utf8 Float64 Value CommandId
  Request Response RespContext Metrics Prog Commands EngineSpec WireSpec RequestSpec
  HistorySpec EngineProps Concurrent ConcSpec ConcFacts ConcProps ConcExact Scripts LinSpec
  LinFacts KeyLinSpec KeyLin KeyLinFacts.
From stdpp Require Import gmap list.
From Coq Require Import NArith ZArith.

Ltac asked := apply a_request_asks; [reflexivity|vm_compute; discriminate|vm_compute; reflexivity].
Ltac each_call := let c := fresh "c" in let Hc := fresh "Hc" in
  intros c Hc%issued_concat; cbn [concat app] in Hc;
  repeat (apply elem_of_cons in Hc as [->|Hc]); [..|by apply elem_of_nil in Hc].

(** The state of the examples. *)
Definition example_store : store :=
  store_of [(lit "n", VInteger 40); (lit "a", VInteger 5); (lit "l", VList [lit "x"])].

Ltac roomy_all := let m := fresh in intros m; unfold example_store, store_of, count; cbn [st_counters];
  rewrite lookup_empty; vm_compute; reflexivity.

Notation incr k := (ask CIncrement None [lit k]) (only parsing).
Notation get k := (ask CGet None [lit k]) (only parsing).
Notation del k := (ask CDelete None [lit k]) (only parsing).
Notation push k l := (ask CAppend (Some KTList) (lit k :: l)) (only parsing).

(** C85: the calls about one key take effect one after the other, whatever the clients do with other
    keys: at every instant there is an order of them that gives what is at the key and all outcomes so
    far, and the order only grows. *)
Theorem C85_one_key :
  forall k scripts s0 sched x,
  room_for_all scripts s0 -> simple_at k scripts s0 -> sys_run sched (begin scripts s0) = Some x ->
  linearizable_at k scripts s0 sched.
Proof. exact c85. Qed.
Print Assumptions C85_one_key.

Example C85_nonvacuous :
  let scripts := [[incr "n"; ask CRename None [lit "a"; lit "b"]; get "n"];
                  [push "new" [lit "y"]; incr "n"]; [get "n"; ask CStats None []]] in
  let sched := [2; 1; 2; 1; 2; 2; 2; 2; 0; 1; 0; 2; 0; 0; 0; 1; 1; 0; 1; 2; 0; 2; 0;
                0; 2; 0; 1; 1; 0; 1; 0; 0; 0; 1; 0]%nat in
  room_for_all scripts example_store /\ simple_at (lit "n") scripts example_store /\
  match sys_run sched (begin scripts example_store) with
  | Some x => map (fun cl => map is_ok (cl_done cl)) x.1 = [[true; true; true]; [true; true]; [true; true]] /\
              st_keys x.2 !! lit "n" = Some (VInteger 42)
  | None => False
  end.
Proof.
  split_and!; [roomy_all| |vm_compute; split_and!; reflexivity].
  assert (Hnot : forall c kt l, asks (c_req (ask c kt l)) c kt l ->
    (read_only c || negb (bool_decide (l !! 0%nat = Some (lit "n")) || bool_decide (l !! 1%nat = Some (lit "n")))) = true ->
    ~ may_write (c_req (ask c kt l)) (lit "n")) by (intros; by eapply not_may_write).
  each_call.
  all: split; [|intros Hu Ha; vm_compute in Ha; try done; (split; [by eexists|]); clear;
    (each_call; vm_compute; done)].
  1, 3, 5, 6: left; repeat split; first [by left|by right|done].
  all: right; first [by intros [Hro _]|apply Hnot; [asked|vm_compute; reflexivity]].
Qed.

(** C86: increments of one counter hand out consecutive numbers.  There is one order of those that
    have taken effect; the one at place [i] that has returned got the start plus [i + 1], so no two got
    the same number and none is left out; one that begins after another has returned gets a larger
    number; and the counter holds the last number given. *)
Theorem C86_tickets :
  forall k scripts s0 z0 sched x,
  room_for_all scripts s0 -> ordinary k -> st_keys s0 !! k = Some (VInteger z0) ->
  i64_range z0 -> i64_range (z0 + Z.of_nat (length (concat scripts))) ->
  (forall c, issued scripts c ->
     (env_ok (c_env c) /\ adds_int c k 1) \/ ~ may_write (c_req c) k) ->
  sys_run sched (begin scripts s0) = Some x ->
  exists out : list (nat * nat), NoDup out /\
  (forall a, a ∈ out -> exists c, call_at scripts a = Some c /\ adds_int c k 1) /\
  (forall a c r, call_at scripts a = Some c -> adds_int c k 1 -> returned x a r ->
     exists i, out !! i = Some a /\
       responds (c_env c) (c_res c) (VInteger (z0 + 1 + Z.of_nat i)) r) /\
  (forall i j a b, out !! i = Some a -> out !! j = Some b -> before scripts s0 sched a b -> i < j) /\
  st_keys x.2 !! k = Some (VInteger (z0 + Z.of_nat (length out))).
Proof. exact c86. Qed.
Print Assumptions C86_tickets.

Example C86_nonvacuous :
  let scripts := [[incr "n"; get "n"; incr "n"]; [incr "n"; del "a"]; [get "n"; incr "n"]] in
  let sched := [0; 2; 1; 1; 1; 2; 0; 1; 0; 2; 0; 2; 0; 0; 0; 1; 1; 2; 1; 2; 1; 0; 2; 2; 0; 0; 0; 0]%nat in
  room_for_all scripts example_store /\ ordinary (lit "n") /\
  st_keys example_store !! lit "n" = Some (VInteger 40) /\ i64_range 40 /\
  i64_range (40 + Z.of_nat (List.length (concat scripts))) /\
  (forall c, issued scripts c -> (env_ok (c_env c) /\ adds_int c (lit "n") 1) \/
     ~ may_write (c_req c) (lit "n")) /\
  match sys_run sched (begin scripts example_store) with
  | Some x => map (fun cl => map decoded (cl_done cl)) x.1 =
      map (map (fun v => Some (PConcluded (RValue v))))
        [[VInteger 42; VInteger 42; VInteger 44]; [VInteger 41; VBytes (lit "a")]; [VInteger 41; VInteger 43]] /\
      st_keys x.2 !! lit "n" = Some (VInteger 44)
  | None => False
  end.
Proof.
  assert (Ha : adds_int (incr "n") (lit "n") 1).
  { exists CIncrement, None, [lit "n"]. split; [asked|]. left. repeat split; [done|]. by exists []. }
  split_and!; [roomy_all|apply ordinary_dec; vm_compute; reflexivity|reflexivity|done|done| |
    vm_compute; split_and!; reflexivity].
  each_call.
  1, 3, 4, 7: left; split; [apply env_std_ok|exact Ha].
  all: right; eapply not_may_write; [asked|vm_compute; reflexivity].
Qed.

(** C87: appends to one key that is there are all kept, whole, each once: what is at the key is the
    initial value and then the items of all appends that have taken effect, one append after the other,
    and each append that has returned got the value up to and with its own items. *)
Theorem C87_appends :
  forall k scripts s0 t v0 sched x,
  room_for_all scripts s0 -> ordinary k -> st_keys s0 !! k = Some v0 -> kind v0 = t ->
  is_Some (append_to v0 []) ->
  (forall c, issued scripts c ->
     (env_ok (c_env c) /\ exists l, appends c k t l /\ is_Some (append_to v0 l)) \/
     ~ may_write (c_req c) k) ->
  sys_run sched (begin scripts s0) = Some x ->
  exists (out : list (nat * nat)) (ls : list (list bytes)), NoDup out /\
  Forall2 (fun a l => exists c, call_at scripts a = Some c /\ appends c k t l) out ls /\
  (forall a c l r, call_at scripts a = Some c -> appends c k t l -> returned x a r ->
     exists i v, out !! i = Some a /\ append_to v0 (concat (take (S i) ls)) = Some v /\
       responds (c_env c) (c_res c) v r) /\
  (forall i j a b, out !! i = Some a -> out !! j = Some b -> before scripts s0 sched a b -> i < j) /\
  exists v, append_to v0 (concat ls) = Some v /\ st_keys x.2 !! k = Some v.
Proof. exact c87. Qed.
Print Assumptions C87_appends.

Example C87_nonvacuous :
  let scripts := [[push "l" [lit "a"; lit "b"]; get "l"]; [push "l" [lit "c"]; push "l" [lit "d"; lit "e"]]] in
  let sched := [0; 1; 0; 1; 1; 1; 1; 1; 1; 1; 0; 0; 0; 0; 0; 0]%nat in
  room_for_all scripts example_store /\ ordinary (lit "l") /\
  st_keys example_store !! lit "l" = Some (VList [lit "x"]) /\
  (forall c, issued scripts c ->
     (env_ok (c_env c) /\ exists l, appends c (lit "l") KTList l /\ is_Some (append_to (VList [lit "x"]) l)) \/
     ~ may_write (c_req c) (lit "l")) /\
  match sys_run sched (begin scripts example_store) with
  | Some x => map (fun cl => map is_ok (cl_done cl)) x.1 = [[true; true]; [true; true]] /\
      st_keys x.2 !! lit "l" =
        Some (VList [lit "x"; lit "a"; lit "b"; lit "c"; lit "d"; lit "e"])
  | None => False
  end.
Proof.
  assert (Ha : forall l, asks (c_req (push "l" l)) CAppend (Some KTList) (lit "l" :: l) ->
    env_ok (c_env (push "l" l)) /\ exists l', appends (push "l" l) (lit "l") KTList l' /\
      is_Some (append_to (VList [lit "x"]) l')).
  { intros l Hl. split; [apply env_std_ok|]. exists l. split; [exact Hl|]. by eexists. }
  split_and!; [roomy_all|apply ordinary_dec; vm_compute; reflexivity|reflexivity| |
    vm_compute; split_and!; reflexivity].
  each_call.
  1, 3, 4: left; apply Ha; asked.
  all: right; eapply not_may_write; [asked|vm_compute; reflexivity].
Qed.

(** Of appends to a missing key one can be lost although both succeed. *)
Theorem C87_missing_key_refuted :
  exists cs s0 k x y sched ts s rs,
    room_for cs s0 /\ st_keys s0 !! k = None /\ ordinary k /\
    (exists c1 c2, cs = [c1; c2] /\ appends c1 k KTList [x] /\ appends c2 k KTList [y]) /\ x <> y /\
    reaches cs s0 sched ts s /\ all_returned ts rs /\ Forall (fun r => is_ok r = true) rs /\
    st_keys s !! k = Some (VList [y]).
Proof.
  set (cs := [push "new" [lit "x"]; push "new" [lit "y"]]).
  set (sched := [0; 1; 0; 0; 0; 1; 1; 1]%nat).
  exists cs, example_store, (lit "new"), (lit "x"), (lit "y"), sched, (after cs example_store sched).1,
    (after cs example_store sched).2.
  eexists. split_and!.
  - apply store_of_room_for. vm_compute. reflexivity.
  - reflexivity.
  - apply ordinary_dec. vm_compute. reflexivity.
  - exists (push "new" [lit "x"]), (push "new" [lit "y"]). split_and!; [done|asked|asked].
  - done.
  - apply reaches_after. vm_compute. reflexivity.
  - unfold all_returned. instantiate (1 := [COk _; COk _]). vm_compute. reflexivity.
  - by repeat constructor.
  - vm_compute. reflexivity.
Qed.
Print Assumptions C87_missing_key_refuted.

(** C88: of the clients that delete a key that is there, one wins: at every instant either the key is
    still there and no delete has returned, or it is gone and one delete is the one that removed it.
    That one answers with the key, all others fail, and none that returned before it began.  When all
    have returned, one has won. *)
Theorem C88_one_delete :
  forall k scripts s0 v0 sched x,
  room_for_all scripts s0 -> st_keys s0 !! k = Some v0 ->
  (forall c, issued scripts c -> (env_ok (c_env c) /\ deletes c k) \/ ~ may_write (c_req c) k) ->
  sys_run sched (begin scripts s0) = Some x ->
  exists won : option (nat * nat),
  st_keys x.2 !! k = match won with None => Some v0 | Some _ => None end /\
  (forall b, won = Some b -> exists c, call_at scripts b = Some c /\ deletes c k) /\
  (forall a c r, call_at scripts a = Some c -> deletes c k -> returned x a r ->
     exists b, won = Some b /\ ~ before scripts s0 sched a b /\
       if decide (a = b) then responds (c_env c) (c_res c) (VBytes k) r
       else r = CErr EPreconditionFailed (c_res c)) /\
  (finished scripts x -> (exists c, issued scripts c /\ deletes c k) ->
   exists b r, won = Some b /\ returned x b r).
Proof. exact c88. Qed.
Print Assumptions C88_one_delete.

Example C88_nonvacuous :
  let scripts := [[del "a"; get "a"]; [get "n"; del "a"]; [del "a"]] in
  let sched := [1; 0; 2; 2; 2; 2; 1; 1; 1; 0; 0; 0; 1; 0; 0; 0; 0; 1; 1; 1]%nat in
  room_for_all scripts example_store /\ st_keys example_store !! lit "a" = Some (VInteger 5) /\
  (forall c, issued scripts c -> (env_ok (c_env c) /\ deletes c (lit "a")) \/
     ~ may_write (c_req c) (lit "a")) /\
  match sys_run sched (begin scripts example_store) with
  | Some x => finished scripts x /\
      map (fun cl => map is_ok (cl_done cl)) x.1 = [[false; false]; [true; false]; [true]] /\
      st_keys x.2 !! lit "a" = None
  | None => False
  end.
Proof.
  split_and!; [roomy_all|reflexivity| |].
  - each_call.
    1, 4, 5: left; split; [apply env_std_ok|exists []; asked].
    all: right; eapply not_may_write; [asked|vm_compute; reflexivity].
  - vm_compute. split_and!; [repeat constructor|reflexivity|reflexivity].
Qed.
