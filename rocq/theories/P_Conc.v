(** Properties of concurrent commands: C51 - C57, C63, C64, C74.
    The vocabulary is in [ConcSpec], [LinSpec] and [HistorySpec]; the steps that are interleaved in [Prog]. *)
From Coq Require Import String.
From Verif Require Import Bytes BytesFacts Utf8 Float64 Value CommandId
  Request Response RespContext Metrics Prog Commands EngineSpec WireSpec RequestSpec
  HistorySpec EngineProps Concurrent ConcSpec ConcFacts ConcProps ConcExact Scripts LinSpec
  LinFacts ConcBound ConcTight.
From stdpp Require Import gmap list.
From Coq Require Import NArith ZArith.

Ltac asked := apply a_request_asks; [reflexivity|vm_compute; discriminate|vm_compute; reflexivity].
Ltac roomy := apply store_of_room_for; vm_compute; reflexivity.
Ltac scheduled := apply reaches_after; vm_compute; reflexivity.

(** The state of the examples. *)
Definition example_store : store :=
  store_of [(lit "n", VInteger 40); (lit "a", VInteger 5); (lit "l", VList [lit "x"])].

Notation incr k := (ask CIncrement None [lit k]) (only parsing).
Notation incr_by k z := (ask CIncrementBy None [lit k; i64_enc z]) (only parsing).
Notation answer_bytes k :=
  (match write_bytes (env_std false) [] (lit k) with Ok b => b | Panic => [] end) (only parsing).
Notation get k := (ask CGet None [lit k]) (only parsing).

(** C51: clients that add amounts to one integer key, next to any other commands that do not write
    it.  Unless some selection of the amounts would overflow, all of them succeed, in every build and
    under every schedule, and the key ends up with the initial value plus the sum. *)
Theorem C51_exact :
  forall cs s0 k z0 ds sched ts s rs,
  room_for cs s0 -> st_keys s0 !! k = Some (VInteger z0) -> ordinary k ->
  Forall2 (fun c d => adds_int c k d \/ (~ may_write (c_req c) k /\ d = 0%Z)) cs ds ->
  Forall i64_range ds -> (forall bs, i64_range (z0 + picked ds bs)) ->
  reaches cs s0 sched ts s -> all_returned ts rs ->
  st_keys s !! k = Some (VInteger (z0 + foldr Z.add 0%Z ds)) /\
  forall i c d r, cs !! i = Some c -> ds !! i = Some d -> adds_int c k d -> rs !! i = Some r ->
    is_ok r = true.
Proof. exact c51_exact. Qed.
Print Assumptions C51_exact.

(** C51 without that proviso: when all have returned, the key holds the initial value plus the amounts
    of those that succeeded, modulo 2^64.  (In a debug build one that would overflow panics, and adds
    nothing.) *)
Theorem C51_succeeded :
  forall cs s0 k z0 ds sched ts s rs,
  room_for cs s0 -> st_keys s0 !! k = Some (VInteger z0) -> i64_range z0 ->
  Forall2 (fun c d => adds_int c k d \/ (~ may_write (c_req c) k /\ d = 0%Z)) cs ds ->
  reaches cs s0 sched ts s -> all_returned ts rs ->
  st_keys s !! k = Some (VInteger (i64_wrap (z0 + gained ds rs))).
Proof. exact c51. Qed.
Print Assumptions C51_succeeded.

(** C51 for release builds and keys that are not reserved: every amount counts, modulo 2^64. *)
Theorem C51_release :
  forall cs s0 k z0 ds sched ts s rs,
  room_for cs s0 -> st_keys s0 !! k = Some (VInteger z0) -> i64_range z0 -> ~ reserved k ->
  Forall (fun c => debug (c_env c) = false) cs ->
  Forall2 (fun c d => adds_int c k d \/ (~ may_write (c_req c) k /\ d = 0%Z)) cs ds ->
  reaches cs s0 sched ts s -> all_returned ts rs ->
  st_keys s !! k = Some (VInteger (i64_wrap (z0 + foldr Z.add 0%Z ds))).
Proof. exact c51_release. Qed.
Print Assumptions C51_release.

(** C51: and it is an integer all the time. *)
Theorem C51_always_an_integer :
  forall cs s0 k z0 ds sched ts s,
  room_for cs s0 -> st_keys s0 !! k = Some (VInteger z0) -> i64_range z0 ->
  Forall2 (fun c d => adds_int c k d \/ (~ may_write (c_req c) k /\ d = 0%Z)) cs ds ->
  reaches cs s0 sched ts s ->
  exists z, st_keys s !! k = Some (VInteger z).
Proof. exact c51_always. Qed.
Print Assumptions C51_always_an_integer.

Example C51_nonvacuous :
  let cs := [incr "n"; incr_by "n" (-7); get "n"; incr "n"] in
  let sched := [1; 0; 2; 3; 3; 1; 0; 2]%nat in
  room_for cs example_store /\ st_keys example_store !! lit "n" = Some (VInteger 40) /\
  Forall2 (fun c d => adds_int c (lit "n") d \/ (~ may_write (c_req c) (lit "n") /\ d = 0%Z))
    cs [1; -7; 0; 1]%Z /\
  Forall i64_range [1; -7; 0; 1]%Z /\ (forall bs, i64_range (40 + picked [1; -7; 0; 1]%Z bs)) /\
  ordinary (lit "n") /\
  reaches cs example_store sched (after cs example_store sched).1 (after cs example_store sched).2 /\
  (exists rs, all_returned (after cs example_store sched).1 rs /\ map decoded rs =
    map (fun z => Some (PConcluded (RValue (VInteger z)))) [34; 33; 34; 35]%Z) /\
  st_keys (after cs example_store sched).2 !! lit "n" = Some (VInteger 35).
Proof.
  split_and!; [roomy|reflexivity| | | |apply ordinary_dec; vm_compute; reflexivity
    |scheduled| |vm_compute; reflexivity].
  2: { repeat constructor; done. }
  2: { assert (forall b, i64_range (40 + picked [1; -7; 0; 1]%Z b)); [|done].
       intros [|b1 [|b2 [|b3 [|b4 bs]]]]; cbn; unfold i64_range, i64_half; repeat case_match; lia. }
  - repeat (apply Forall2_cons; split); [left|left|right|left|].
    + exists CIncrement, None, [lit "n"]. split; [asked|]. left. repeat split; [done|]. by exists [].
    + exists CIncrementBy, None, [lit "n"; i64_enc (-7)]. split; [asked|]. right. right.
      exists (-7)%Z, [], []. rewrite app_nil_r. split_and!; [done|by vm_compute|]. by left.
    + split; [|done]. eapply not_may_write; [asked|done].
    + exists CIncrement, None, [lit "n"]. split; [asked|]. left. repeat split; [done|]. by exists [].
    + constructor.
  - eexists. split.
    + unfold all_returned.
      instantiate (1 := [COk _; COk _; COk _; COk _]). vm_compute. reflexivity.
    + vm_compute. reflexivity.
Qed.

(** C52 is false: two clients increment a missing key, both succeed, and the key ends up at 1. *)
Theorem C52_refuted :
  exists cs s0 k sched ts s rs,
    room_for cs s0 /\ st_keys s0 !! k = None /\ length cs = 2%nat /\
    Forall (fun c => debug (c_env c) = false /\ adds_int c k 1) cs /\ ordinary k /\
    reaches cs s0 sched ts s /\ all_returned ts rs /\ Forall (fun r => is_ok r = true) rs /\
    st_keys s !! k = Some (VInteger 1).
Proof.
  set (cs := [incr "new"; incr "new"]). set (sched := [0; 1; 0; 0; 1; 1; 0; 1]%nat).
  exists cs, example_store, (lit "new"), sched, (after cs example_store sched).1,
    (after cs example_store sched).2, [COk (write_int [] 1);
      COk (write_int [] 1)].
  assert (Ha : adds_int (incr "new") (lit "new") 1).
  { exists CIncrement, None, [lit "new"]. split; [asked|]. left. repeat split; [done|]. by exists []. }
  split_and!; [roomy|reflexivity|done| | |scheduled| |by repeat constructor|vm_compute; reflexivity].
  - repeat constructor; done.
  - apply ordinary_dec. vm_compute. reflexivity.
  - vm_compute. reflexivity.
Qed.
Print Assumptions C52_refuted.

(** C52, proved part: the key holds the sum of the amounts of some of the clients that succeeded, at
    least one.  Missing: of all of them. *)
Theorem C52_partial :
  forall cs s0 k ds sched ts s rs,
  room_for cs s0 -> st_keys s0 !! k = None ->
  Forall2 (fun c d => adds_int c k d \/ (~ may_write (c_req c) k /\ d = 0%Z)) cs ds ->
  reaches cs s0 sched ts s -> all_returned ts rs ->
  (exists i c d r, cs !! i = Some c /\ ds !! i = Some d /\ adds_int c k d /\
     rs !! i = Some r /\ is_ok r = true) ->
  exists bs, length bs = length ds /\
    st_keys s !! k = Some (VInteger (i64_wrap (picked ds bs))) /\
    (exists i, bs !! i = Some true) /\
    forall i, bs !! i = Some true -> exists c d r,
      cs !! i = Some c /\ ds !! i = Some d /\ adds_int c k d /\ rs !! i = Some r /\ is_ok r = true.
Proof. exact c52. Qed.
Print Assumptions C52_partial.

(** C52, for increments by one: the count is at least 1 and at most the number of clients. *)
Theorem C52_counts_partial :
  forall cs s0 k sched ts s rs,
  room_for cs s0 -> st_keys s0 !! k = None -> (lenN cs < 2 ^ 63)%N ->
  Forall (fun c => adds_int c k 1) cs ->
  reaches cs s0 sched ts s -> all_returned ts rs -> Exists (fun r => is_ok r = true) rs ->
  exists z, st_keys s !! k = Some (VInteger z) /\ (1 <= z <= Z.of_N (lenN cs))%Z.
Proof. exact c52_ones. Qed.
Print Assumptions C52_counts_partial.

(** C52, how bad it gets: whichever clients are picked, if at least one is, there is a schedule in
    which everybody succeeds and only the amounts of the picked ones are in the key. *)
Theorem C52_any_partial :
  forall cs s0 k ds bs,
  room_for cs s0 -> st_keys s0 !! k = None -> ordinary k ->
  Forall2 (fun c d => debug (c_env c) = false /\ adds_int c k d) cs ds ->
  length bs = length ds -> (exists i, bs !! i = Some true) ->
  exists sched ts s rs, reaches cs s0 sched ts s /\ all_returned ts rs /\
    Forall (fun r => is_ok r = true) rs /\
    st_keys s !! k = Some (VInteger (i64_wrap (picked ds bs))).
Proof. exact c52_any. Qed.
Print Assumptions C52_any_partial.

(** C52, for increments by one: every count from 1 to the number of clients happens. *)
Theorem C52_any_count_partial :
  forall cs s0 k z,
  room_for cs s0 -> st_keys s0 !! k = None -> ordinary k -> (lenN cs < 2 ^ 63)%N ->
  Forall (fun c => debug (c_env c) = false /\ adds_int c k 1) cs ->
  (1 <= z <= Z.of_N (lenN cs))%Z ->
  exists sched ts s rs, reaches cs s0 sched ts s /\ all_returned ts rs /\
    Forall (fun r => is_ok r = true) rs /\ st_keys s !! k = Some (VInteger z).
Proof. exact c52_any_count. Qed.
Print Assumptions C52_any_count_partial.

Example C52_any_nonvacuous :
  let cs := [incr "new"; incr_by "new" 7; incr "new"] in
  room_for cs example_store /\ st_keys example_store !! lit "new" = None /\ ordinary (lit "new") /\
  Forall2 (fun c d => debug (c_env c) = false /\ adds_int c (lit "new") d) cs [1; 7; 1]%Z /\
  length [true; false; true] = length [1; 7; 1]%Z /\ picked [1; 7; 1]%Z [true; false; true] = 2%Z.
Proof.
  split_and!; [roomy|reflexivity|apply ordinary_dec; vm_compute; reflexivity| |done|done].
  repeat (apply Forall2_cons; split); [split; [done|]..|].
  - exists CIncrement, None, [lit "new"]. split; [asked|]. left. repeat split; [done|]. by exists [].
  - exists CIncrementBy, None, [lit "new"; i64_enc 7]. split; [asked|]. right. right.
    exists 7%Z, [], []. rewrite app_nil_r. split_and!; [done|by vm_compute|]. by left.
  - exists CIncrement, None, [lit "new"]. split; [asked|]. left. repeat split; [done|]. by exists [].
  - constructor.
Qed.

Example C52_nonvacuous :
  let cs := [incr "new"; incr_by "new" 7; incr "new"] in
  let sched := [0; 1; 0; 0; 1; 1; 0; 1; 2; 2]%nat in
  room_for cs example_store /\ st_keys example_store !! lit "new" = None /\
  Forall2 (fun c d => adds_int c (lit "new") d \/ (~ may_write (c_req c) (lit "new") /\ d = 0%Z))
    cs [1; 7; 1]%Z /\
  reaches cs example_store sched (after cs example_store sched).1 (after cs example_store sched).2 /\
  (exists rs, all_returned (after cs example_store sched).1 rs /\
     Forall (fun r => is_ok r = true) rs) /\
  st_keys (after cs example_store sched).2 !! lit "new" = Some (VInteger 8) /\
  picked [1; 7; 1]%Z [false; true; true] = 8%Z.
Proof.
  split_and!; [roomy|reflexivity| |scheduled| |vm_compute; reflexivity|reflexivity].
  - repeat (apply Forall2_cons; split); [left|left|left|].
    + exists CIncrement, None, [lit "new"]. split; [asked|]. left. repeat split; [done|]. by exists [].
    + exists CIncrementBy, None, [lit "new"; i64_enc 7]. split; [asked|]. right. right.
      exists 7%Z, [], []. rewrite app_nil_r. split_and!; [done|by vm_compute|]. by left.
    + exists CIncrement, None, [lit "new"]. split; [asked|]. left. repeat split; [done|]. by exists [].
    + constructor.
  - eexists. split.
    + unfold all_returned. instantiate (1 := [COk _; COk _; COk _]). vm_compute. reflexivity.
    + by repeat constructor.
Qed.

(** C53 is false: while a rename runs, its value is under neither name; *)
Theorem C53_refuted_invisible :
  exists cs s0 a b v sched ts s res,
    cs = [ask CRename None [a; b]; ask CGet None [a]; ask CGet None [b]] /\
    asks (c_req (ask CRename None [a; b])) CRename None [a; b] /\
    asks (c_req (ask CGet None [a])) CGet None [a] /\ asks (c_req (ask CGet None [b])) CGet None [b] /\
    st_keys s0 !! a = Some v /\ st_keys s0 !! b = None /\ ordinary a /\ ordinary b /\
    reaches cs s0 sched ts s /\
    all_returned ts [COk res; CErr EKeyNonexistent []; CErr EKeyNonexistent []].
Proof.
  set (cs := [ask CRename None [lit "a"; lit "b"]; get "a"; get "b"]).
  set (sched := [0; 0; 0; 1; 2; 1; 2; 0; 0]%nat).
  exists cs, example_store, (lit "a"), (lit "b"), (VInteger 5), sched,
    (after cs example_store sched).1, (after cs example_store sched).2,
    (answer_bytes "b").
  split_and!; [done|asked|asked|asked|reflexivity|reflexivity|
    apply ordinary_dec; vm_compute; reflexivity|apply ordinary_dec; vm_compute; reflexivity|scheduled|].
  vm_compute. reflexivity.
Qed.
Print Assumptions C53_refuted_invisible.

(** and a value that another client has successfully set at the destination is overwritten. *)
Theorem C53_refuted_overwrites :
  exists cs s0 a b v x sched ts s r1 r2,
    cs = [ask CRename None [a; b]; ask CSet (Some KTBytes) [b; x]] /\
    asks (c_req (ask CRename None [a; b])) CRename None [a; b] /\
    asks (c_req (ask CSet (Some KTBytes) [b; x])) CSet (Some KTBytes) [b; x] /\
    st_keys s0 !! a = Some v /\ v <> VBytes x /\ st_keys s0 !! b = None /\
    reaches cs s0 sched ts s /\ all_returned ts [COk r1; COk r2] /\
    st_keys s !! b = Some v /\
    (* at some moment the other value was there, and its client had been told so *)
    exists n ts1 s1, reaches cs s0 (take n sched) ts1 s1 /\ ts1 !! 1%nat = Some (PRet (COk r2)) /\
      st_keys s1 !! b = Some (VBytes x).
Proof.
  set (cs := [ask CRename None [lit "a"; lit "b"]; ask CSet (Some KTBytes) [lit "b"; lit "x"]]).
  set (sched := [0; 0; 1; 1; 1; 1; 1; 0; 0; 0]%nat).
  exists cs, example_store, (lit "a"), (lit "b"), (VInteger 5), (lit "x"), sched,
    (after cs example_store sched).1, (after cs example_store sched).2,
    (answer_bytes "b"), (answer_bytes "x").
  split_and!; [done|asked|asked|reflexivity|done|reflexivity|scheduled|vm_compute; reflexivity|
    vm_compute; reflexivity|].
  exists 7%nat, (after cs example_store (take 7 sched)).1, (after cs example_store (take 7 sched)).2.
  split_and!; [scheduled|vm_compute; reflexivity|vm_compute; reflexivity].
Qed.
Print Assumptions C53_refuted_overwrites.

(** C53, proved part: if no other client writes either name, the value is at all times under exactly
    one of the names, except between the removal and the next step of the renaming client, which
    puts it at the destination.  Missing: that moment, and other writers. *)
Theorem C53_partial :
  forall cs s0 i c a b v r sched ts s,
  room_for cs s0 -> cs !! i = Some c -> asks (c_req c) CRename None (a :: b :: r) ->
  undisturbed cs i c -> st_keys s0 !! a = Some v -> st_keys s0 !! b = None ->
  reaches cs s0 sched ts s ->
  (st_keys s !! a = Some v /\ st_keys s !! b = None) \/
  (st_keys s !! a = None /\ st_keys s !! b = Some v) \/
  (st_keys s !! a = None /\ st_keys s !! b = None /\
   exists x, pool_step i (ts, s) = Some x /\ st_keys x.2 !! a = None /\ st_keys x.2 !! b = Some v).
Proof. exact c53. Qed.
Print Assumptions C53_partial.

Example C53_nonvacuous :
  let cs := [get "b"; ask CRename None [lit "a"; lit "b"]; incr "n"] in
  let s := (after cs example_store [1; 1; 0; 2; 1]%nat).2 in
  room_for cs example_store /\
  asks (c_req (ask CRename None [lit "a"; lit "b"])) CRename None [lit "a"; lit "b"] /\
  undisturbed cs 1 (ask CRename None [lit "a"; lit "b"]) /\
  st_keys example_store !! lit "a" = Some (VInteger 5) /\ st_keys example_store !! lit "b" = None /\
  reaches cs example_store [1; 1; 0; 2; 1]%nat (after cs example_store [1; 1; 0; 2; 1]%nat).1 s /\
  st_keys s !! lit "a" = None /\ st_keys s !! lit "b" = None /\
  st_keys (after cs example_store [1; 1; 0; 2; 1; 1]%nat).2 !! lit "b" = Some (VInteger 5).
Proof.
  assert (Hr : asks (c_req (ask CRename None [lit "a"; lit "b"])) CRename None [lit "a"; lit "b"])
    by asked.
  split_and!; [roomy|done| |reflexivity|reflexivity|scheduled|vm_compute; reflexivity..].
  intros [|[|[|j]]] c' k Hj Hc' Hu; try done; injection Hc' as <-.
  - eapply not_may_write; [asked|done].
  - destruct Hr as (_ & _ & _ & Ha). unfold uses in Hu. cbn in Hu. rewrite !Ha in Hu.
    destruct Hu as [[= <-]|[= <-]]; (eapply not_may_write; [asked|vm_compute; reflexivity]).
Qed.

(** C54 is false: a Get while an existing key is overwritten answers that the key does not exist, *)
Theorem C54_refuted_missing :
  exists cs s0 k old new sched ts s res,
    cs = [ask CSet (Some KTInteger) [k; i64_enc new]; ask CGet None [k]] /\
    asks (c_req (ask CSet (Some KTInteger) [k; i64_enc new])) CSet (Some KTInteger) [k; i64_enc new] /\
    asks (c_req (ask CGet None [k])) CGet None [k] /\ ordinary k /\
    st_keys s0 !! k = Some (VInteger old) /\
    reaches cs s0 sched ts s /\ all_returned ts [COk res; CErr EKeyNonexistent []].
Proof.
  set (cs := [ask CSet (Some KTInteger) [lit "n"; i64_enc 50]; get "n"]).
  set (sched := [0; 1; 1; 0; 0; 0; 0]%nat).
  exists cs, example_store, (lit "n"), 40%Z, 50%Z, sched,
    (after cs example_store sched).1, (after cs example_store sched).2,
    (write_int [] 50).
  split_and!; [done|asked|asked|apply ordinary_dec; vm_compute; reflexivity|reflexivity|scheduled|].
  vm_compute. reflexivity.
Qed.
Print Assumptions C54_refuted_missing.

(** or a value that nobody set. *)
Theorem C54_refuted_default :
  exists cs s0 k old new sched ts s r1 r2,
    cs = [ask CSet (Some KTInteger) [k; i64_enc new]; ask CGet None [k]] /\
    asks (c_req (ask CSet (Some KTInteger) [k; i64_enc new])) CSet (Some KTInteger) [k; i64_enc new] /\
    asks (c_req (ask CGet None [k])) CGet None [k] /\ ordinary k /\
    st_keys s0 !! k = Some (VInteger old) /\ old <> 0%Z /\ new <> 0%Z /\
    reaches cs s0 sched ts s /\ all_returned ts [r1; r2] /\
    decoded r2 = Some (PConcluded (RValue (VInteger 0))).
Proof.
  set (cs := [ask CSet (Some KTInteger) [lit "n"; i64_enc 50]; get "n"]).
  set (sched := [0; 0; 0; 1; 1; 0; 0]%nat).
  exists cs, example_store, (lit "n"), 40%Z, 50%Z, sched,
    (after cs example_store sched).1, (after cs example_store sched).2,
    (COk (write_int [] 50)), (COk (write_int [] 0)).
  split_and!; [done|asked|asked|apply ordinary_dec; vm_compute; reflexivity|reflexivity|done|done|
    scheduled| |].
  all: vm_compute; reflexivity.
Qed.
Print Assumptions C54_refuted_default.

(** C54, proved part: while one client sets a key that no other client writes, the key holds the old
    value, nothing, the empty value of the new type, or the new value.  Missing: never the middle two. *)
Theorem C54_partial :
  forall cs s0 i c kt k l v sched ts s,
  room_for cs s0 -> cs !! i = Some c -> asks (c_req c) CSet kt (k :: l) ->
  value_wf v -> spells v l -> l <> [] -> acts_on s0 kt k KTBytes (kind v) ->
  undisturbed cs i c -> reaches cs s0 sched ts s ->
  mid_set (st_keys s0 !! k) (kind v) v (st_keys s !! k).
Proof. exact c54. Qed.
Print Assumptions C54_partial.

(** C54, proved part: and that is what a concurrent Get answers. *)
Theorem C54_get_partial :
  forall cs s0 i c kt k l v j g sched ts s r,
  room_for cs s0 -> cs !! i = Some c -> asks (c_req c) CSet kt (k :: l) ->
  value_wf v -> spells v l -> l <> [] -> acts_on s0 kt k KTBytes (kind v) ->
  undisturbed cs i c -> ordinary k ->
  cs !! j = Some g -> env_ok (c_env g) -> asks (c_req g) CGet None [k] ->
  reaches cs s0 sched ts s -> ts !! j = Some (PRet r) ->
  exists now, mid_set (st_keys s0 !! k) (kind v) v now /\
    match now with
    | Some w => responds (c_env g) (c_res g) w r
    | None => r = CErr EKeyNonexistent (c_res g)
    end.
Proof. exact c54_get. Qed.
Print Assumptions C54_get_partial.

Example C54_nonvacuous :
  let c := ask CSet (Some KTInteger) [lit "n"; i64_enc 50] in
  let cs := [c; get "n"] in
  room_for cs example_store /\ asks (c_req c) CSet (Some KTInteger) [lit "n"; i64_enc 50] /\
  value_wf (VInteger 50) /\ spells (VInteger 50) [i64_enc 50] /\
  acts_on example_store (Some KTInteger) (lit "n") KTBytes (kind (VInteger 50)) /\
  undisturbed cs 0 c /\ ordinary (lit "n") /\ env_ok (c_env (get "n")) /\
  asks (c_req (get "n")) CGet None [lit "n"] /\
  map (fun sched => (st_keys (after cs example_store sched).2) !! lit "n")
    [[]; [0]; [0; 0]; [0; 0; 0]; [0; 0; 0; 0]]%nat
  = [Some (VInteger 40); None; None; Some (VInteger 0); Some (VInteger 50)].
Proof.
  split_and!; [roomy|asked|by vm_compute|done|by left| |apply ordinary_dec; vm_compute; reflexivity|
    apply env_std_ok|asked|vm_compute; reflexivity].
  intros [|[|j]] c' k Hj Hc' Hu; try done; injection Hc' as <-.
  eapply not_may_write; [asked|done].
Qed.

(** C55: in every reachable state every client finishes alone, in at most six steps plus one per
    argument.  (A client that panics has returned [CPanic].) *)
Theorem C55_progress :
  forall cs s0 sched ts s i c p,
  reaches cs s0 sched ts s -> cs !! i = Some c -> ts !! i = Some p ->
  exists n r ts' s', (N.of_nat n <= 6 + arg_count (c_req c))%N /\
    pool_run (replicate n i) (ts, s) = Some (ts', s') /\ ts' !! i = Some (PRet r).
Proof. exact c55. Qed.
Print Assumptions C55_progress.

(** C55: whatever the schedule, the commands together take a bounded number of steps: a retry costs another
    command its completion. *)
Theorem C55_bounded :
  forall cs s0 sched ts s,
  reaches cs s0 sched ts s ->
  (lenN sched <= lenN cs * (2 * lenN cs + 7) + fold_right (fun c n => arg_count (c_req c) + n) 0 cs)%N.
Proof. exact c55_bounded. Qed.
Print Assumptions C55_bounded.

(** C55: and when no command can take a step, all have returned. *)
Theorem C55_stops :
  forall ts s,
  (forall i, pool_step i (ts, s) = None) -> exists rs, all_returned ts rs.
Proof. exact c55_stops. Qed.
Print Assumptions C55_stops.

Example C55_nonvacuous :
  let cs := [incr "new"; ask CDelete None [lit "new"]] in
  let x := after cs example_store [0; 0; 1]%nat in
  reaches cs example_store [0; 0; 1]%nat x.1 x.2 /\ is_Some (x.1 !! 0%nat) /\
  match pool_run [0; 0; 0]%nat x with Some y => returned_ok <$> y.1 !! 0%nat | None => None end
    = Some false /\
  match pool_run [0; 0; 0; 0]%nat x with Some y => returned_ok <$> y.1 !! 0%nat | None => None end
    = Some true.
Proof.
  split_and!; [scheduled|by eexists|vm_compute; reflexivity|vm_compute; reflexivity].
Qed.

(** C56: the single-step commands, and the updates of a key that exists throughout. *)
Theorem C56_linearizable :
  forall cs s0 i c sched ts s r,
  room_for cs s0 -> cs !! i = Some c ->
  (one_access (c_req c) \/
   (one_update (c_req c) /\
    forall k, arg (c_req c) 0 = Some k -> always_there sched (start cs s0) k)) ->
  reaches cs s0 sched ts s -> ts !! i = Some (PRet r) ->
  linearized i c sched (start cs s0) r.
Proof. exact c56. Qed.
Print Assumptions C56_linearizable.

(** One command after another is one of the schedules, with the outcomes of the histories (C32). *)
Theorem C56_one_after_another :
  forall cs s0,
  exists sched, reaches cs s0 sched (map PRet (run_calls cs s0).2) (run_calls cs s0).1.
Proof. exact sequential_reaches. Qed.
Print Assumptions C56_one_after_another.

Example C56_nonvacuous :
  let cs := [incr "n"; get "n"; ask CDelete None [lit "a"]] in
  let sched := [1; 0; 2; 1; 2; 0]%nat in
  room_for cs example_store /\
  one_access (c_req (get "n")) /\ one_access (c_req (ask CDelete None [lit "a"])) /\
  one_update (c_req (incr "n")) /\ always_there sched (start cs example_store) (lit "n") /\
  reaches cs example_store sched (after cs example_store sched).1 (after cs example_store sched).2 /\
  how_many_at returned_ok (after cs example_store sched).1 = 3%N.
Proof.
  split_and!; [roomy|done|done|done| |scheduled|vm_compute; reflexivity].
  intros n x Hx.
  assert (H : forall m, (m <= 6)%nat -> is_Some (st_keys (after [incr "n"; get "n"; ask CDelete None [lit "a"]]
    example_store (take m [1; 0; 2; 1; 2; 0]%nat)).2 !! lit "n")).
  { intros m Hm. do 7 (destruct m as [|m]; [by eexists|]). lia. }
  assert (E : take n [1; 0; 2; 1; 2; 0]%nat = take (Nat.min n 6) [1; 0; 2; 1; 2; 0]%nat)
    by (by do 7 (destruct n as [|n]; [done|])).
  rewrite E in Hx. specialize (H (Nat.min n 6) ltac:(lia)). unfold after in H.
  rewrite Hx in H. exact H.
Qed.

(** C57, and more: at every moment the counters are exact for the clients that have returned. *)
Theorem C57_counters :
  forall cs s0 sched ts s,
  room_for cs s0 -> reaches cs s0 sched ts s ->
  count s MCommandsSuccessful = (count s0 MCommandsSuccessful + how_many_at returned_ok ts)%N /\
  count s MCommandsErrored = (count s0 MCommandsErrored + how_many_at returned_err ts)%N /\
  count s MSessionsStarted = count s0 MSessionsStarted /\
  count s MSessionsEnded = count s0 MSessionsEnded.
Proof. exact c57. Qed.
Print Assumptions C57_counters.

(** C57. *)
Theorem C57_counters_at_the_end :
  forall cs s0 sched ts s rs,
  room_for cs s0 -> reaches cs s0 sched ts s ->
  all_returned ts rs ->
  count s MCommandsSuccessful =
    (count s0 MCommandsSuccessful + lenN (filter (fun r => is_ok r = true) rs))%N /\
  count s MCommandsErrored =
    (count s0 MCommandsErrored + lenN (filter (fun r => is_err r = true) rs))%N.
Proof. exact c57_final. Qed.
Print Assumptions C57_counters_at_the_end.

Example C57_nonvacuous :
  let cs := [incr "n"; get "missing"; incr "l"; get "__hop__:x"; get "a"] in
  let sched := [2; 0; 1; 4; 4; 2; 1; 0]%nat in
  room_for cs example_store /\
  reaches cs example_store sched (after cs example_store sched).1 (after cs example_store sched).2 /\
  how_many_at returned_ok (after cs example_store sched).1 = 2%N /\
  how_many_at returned_err (after cs example_store sched).1 = 2%N /\
  count (after cs example_store sched).2 MCommandsSuccessful = 2%N /\
  count (after cs example_store sched).2 MCommandsErrored = 2%N.
Proof. split_and!; [roomy|scheduled|vm_compute; reflexivity..]. Qed.

(** C63: a client whose keys no other client writes gets the answer it would get alone, and its keys
    end up as if it had been alone. *)
Theorem C63_undisturbed :
  forall cs s0 i c sched ts s r,
  room_for cs s0 -> cs !! i = Some c -> r_command (c_req c) <> CStats -> undisturbed cs i c ->
  reaches cs s0 sched ts s -> ts !! i = Some (PRet r) ->
  let alone := dispatch (c_env c) s0 (c_req c) (c_res c) in
  r = alone.2 /\ forall k, uses (c_req c) k -> st_keys s !! k = st_keys alone.1 !! k.
Proof. exact c63. Qed.
Print Assumptions C63_undisturbed.

Example C63_nonvacuous :
  let c := ask CRename None [lit "a"; lit "b"] in
  let cs := [incr "n"; c; get "b"] in
  let sched := [1; 0; 1; 2; 1; 0; 1; 2; 1]%nat in
  room_for cs example_store /\ undisturbed cs 1 c /\ uses (c_req c) (lit "b") /\
  reaches cs example_store sched (after cs example_store sched).1 (after cs example_store sched).2 /\
  how_many_at returned_ok (after cs example_store sched).1 = 2%N /\
  st_keys (after cs example_store sched).2 !! lit "b" = Some (VInteger 5).
Proof.
  assert (Hr : asks (c_req (ask CRename None [lit "a"; lit "b"])) CRename None [lit "a"; lit "b"])
    by asked.
  split_and!; [roomy| | |scheduled|vm_compute; reflexivity..].
  - intros [|[|[|j]]] c' k Hj Hc' Hu; try done; injection Hc' as <-.
    + destruct Hr as (_ & _ & _ & Ha). unfold uses in Hu. cbn in Hu. rewrite !Ha in Hu.
      destruct Hu as [[= <-]|[= <-]]; (eapply not_may_write; [asked|vm_compute; reflexivity]).
    + eapply not_may_write; [asked|done].
  - right. apply Hr.
Qed.

(** C64: whatever the requests and the schedule, the stored values stay well typed. *)
Theorem C64_well_typed :
  forall cs s0 sched ts s,
  well_typed (st_keys s0) -> reaches cs s0 sched ts s -> well_typed (st_keys s).
Proof. exact c64. Qed.
Print Assumptions C64_well_typed.

Example C64_nonvacuous :
  let cs := [ask CSet (Some KTString) [lit "s"; lit "hello"]; ask CAppend None [lit "s"; lit "!"]] in
  let sched := [1; 0; 1; 0; 1; 0; 1; 0; 0; 1]%nat in
  well_typed (st_keys store_new) /\
  reaches cs store_new sched (after cs store_new sched).1 (after cs store_new sched).2 /\
  map (fun n => st_keys (after cs store_new (take n sched)).2 !! lit "s") [2; 5; 6; 8; 10]%nat
  = [None; Some (VBytes []); Some (VString []); Some (VString (lit "hello"));
     Some (VString (lit "hello"))].
Proof.
  split_and!; [apply map_Forall_empty| |].
  - scheduled.
  - vm_compute. reflexivity.
Qed.

(** C74: clients that issue any number of such calls, under every schedule.  [linearizable] says that
    every call takes effect in one instant between its begin and its return. *)
Theorem C74_linearizable :
  forall scripts s0 sched x,
  room_for_all scripts s0 -> simple scripts s0 -> sys_run sched (begin scripts s0) = Some x ->
  linearizable scripts s0 sched.
Proof. exact c74. Qed.
Print Assumptions C74_linearizable.

Example C74_nonvacuous :
  let scripts := [[incr "n"; get "n"]; [ask CDelete None [lit "a"]; get "n"; get "a"]; [incr "n"]] in
  let sched := [0; 2; 1; 2; 0; 1; 0; 1; 1; 1; 2; 0; 2; 0; 1; 1; 0; 1; 0; 0; 1; 1; 1; 1]%nat in
  room_for_all scripts example_store /\ simple scripts example_store /\
  match sys_run sched (begin scripts example_store) with
  | Some x => map (fun cl => map is_ok (cl_done cl)) x.1 = [[true; true]; [true; true; false]; [true]] /\
              st_keys x.2 !! lit "n" = Some (VInteger 42) /\ st_keys x.2 !! lit "a" = None
  | None => False
  end.
Proof.
  split_and!.
  - intros m. unfold example_store, store_of, count. cbn [st_counters]. rewrite lookup_empty. vm_compute. reflexivity.
  - intros c Hc%issued_concat. cbn [concat app] in Hc.
    repeat (apply elem_of_cons in Hc as [->|Hc]);
      [right; split; [done|]|left; done|left; done|left; done|left; done|right; split; [done|]
      |by apply elem_of_nil in Hc].
    all: intros k Hk; vm_compute in Hk; injection Hk as <-; split; [by eexists|].
    all: intros d Hd%issued_concat; cbn [concat app] in Hd;
      repeat (apply elem_of_cons in Hd as [->|Hd]); try done; by apply elem_of_nil in Hd.
  - vm_compute. split_and!; reflexivity.
Qed.
