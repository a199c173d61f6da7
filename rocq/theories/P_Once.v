(** Clients that add to a key while others set it, delete it or rename it away: C121.  The vocabulary is in [OnceSpec]
    and, for tasks that share a memory client, in [MemOnceSpec]; clients that issue one call after another are in
    [Scripts], with the map's locks in [LockScripts], and tasks in [MemTasks]. *)
From Coq Require Import String.
From Verif Require Import Locks LockSpec LockScripts LockScriptSpec.
From Verif Require Import Bytes BytesFacts Utf8 Float64 Value CommandId
  Request Response RespContext Metrics Prog Commands EngineSpec WireSpec RequestSpec
  HistorySpec EngineProps ConcSpec ConcFacts ConcProps Scripts LinSpec LinFacts KeyLinSpec Client ClientSpec ClientFacts
  ClientProps MemTasks MemTaskSpec MemTaskFacts MemAppendSpec SetRaceSpec SetRaceFacts TakeRaceSpec MemRaceSpec ForwardSpec
  MemForwardSpec MemForward StartRaceSpec StartRace MemStartSpec MemStart OnceSpec OnceFacts MemOnceSpec MemOnce.
From stdpp Require Import gmap list.
From Coq Require Import NArith ZArith Lia.

Ltac asked := apply a_request_asks; [reflexivity|vm_compute; discriminate|vm_compute; reflexivity].
Ltac each_call := let c := fresh "c" in let Hc := fresh "Hc" in
  intros c Hc%issued_concat; cbn [concat app] in Hc;
  repeat (apply elem_of_cons in Hc as [->|Hc]); [..|by apply elem_of_nil in Hc].
Ltac each_task_call := let i := fresh "i" in let j := fresh "j" in let H := fresh "H" in
  intros ? ? [[i j] H]; unfold task_call in H; cbn [fst snd] in H;
  destruct i as [|[|[|i]]]; cbn in H; try done; try (by destruct i);
  destruct j as [|[|[|[|j]]]]; cbn in H; try done; injection H as <- <-.

(** The state, the clients and the tasks of the examples. *)
Definition one_shard : shards := Shards (fun _ => 0%N) (fun _ => 0%N).
Notation dbg := (env_std true) (only parsing).
Notation rel := (env_std false) (only parsing).
Definition example_store : store := store_of [(lit "n", VInteger 10); (lit "m", VList [lit "x"])].
Ltac roomy := let m := fresh "m" in intros m; unfold example_store, store_of, count; cbn [st_counters];
  rewrite lookup_empty; vm_compute; reflexivity.
Notation incr k := (ask CIncrement None [lit k]) (only parsing).
Notation incr_by k z := (ask CIncrementBy (Some KTInteger) [lit k; i64_enc z]) (only parsing).
Notation push k l := (ask CAppend (Some KTList) (lit k :: l)) (only parsing).
Notation del k := (ask CDelete None [lit k]) (only parsing).
Notation ren k j := (ask CRename None [lit k; lit j]) (only parsing).
Notation get k := (ask CGet None [lit k]) (only parsing).
Notation set_int k z := (ask CSet (Some KTInteger) [lit k; i64_enc z]) (only parsing).
Notation set_list k l := (ask CSet (Some KTList) (lit k :: l)) (only parsing).
Notation counter_scripts := [[incr "n"; del "n"]; [incr_by "n" 5; incr_by "n" (-2)];
  [ren "n" "o"; incr "n"]; [set_int "n" 7; get "n"]] (only parsing).
Notation log_scripts := [[push "m" [lit "a"]; del "m"]; [push "m" [lit "b"; lit "c"]; push "m" [lit "d"]];
  [ren "m" "o"; push "m" [lit "e"]]; [set_list "m" [lit "y"]; get "m"]] (only parsing).
Definition once_sched : list nat :=
  [2; 2; 2; 2; 0; 0; 0; 1; 1; 1; 1; 1; 1; 3; 3; 3; 3; 3; 3; 0; 1; 2; 3; 0; 1; 2; 0; 2; 0; 2; 0; 2; 0;
   2; 0; 2; 2; 2; 3; 3; 3; 3]%nat.
Definition counter_tasks : list task :=
  [[(dbg, KIncrement (lit "n") None); (dbg, KGet (lit "n"))];
   [(dbg, KIncrementBy (lit "n") (VInteger 5)); (dbg, KDelete (lit "n")); (dbg, KIncrementInt (lit "n") (Some (-2)%Z))];
   [(dbg, KSet (lit "n") (VInteger 7)); (dbg, KRename (lit "n") (lit "o"))]].
Definition counter_sched : list (nat * list value) := map (fun i => (i, [VInteger 99]))
  [0; 0; 1; 0; 2; 0; 0; 0; 1; 0; 1; 0; 1; 0; 1; 0; 1; 2; 1; 2; 1; 2; 1; 2; 1; 2; 1; 2; 1; 1; 1; 2; 1;
   2; 1; 2; 1; 2; 1; 2; 1; 2; 2; 2; 1; 2; 1; 2; 1; 2; 1; 2; 1; 2; 1; 2; 1; 2; 1; 2; 1; 2; 2; 2; 2; 2;
   2; 2; 2; 2; 2; 2; 2; 2; 0; 0; 0; 0; 0; 0; 0; 0]%nat.
Definition log_tasks : list task :=
  [[(dbg, KAppend (lit "m") (VList [lit "a"])); (dbg, KGetTyped (lit "m") KTList)];
   [(dbg, KDelete (lit "m")); (dbg, KAppendTyped (lit "m") (VList [lit "b"; lit "c"]))];
   [(dbg, KSet (lit "m") (VList [lit "y"])); (dbg, KRename (lit "m") (lit "o"))]].
Definition log_sched : list (nat * list value) := map (fun i => (i, [VInteger 99]))
  [0; 0; 1; 0; 2; 0; 0; 0; 1; 0; 1; 0; 1; 2; 0; 1; 2; 0; 1; 2; 1; 2; 1; 2; 1; 2; 1; 1; 1; 2; 2; 2; 1;
   1; 1; 2; 2; 2; 2; 2; 1; 2; 1; 2; 1; 2; 1; 2; 1; 2; 1; 2; 1; 2; 1; 2; 1; 2; 2; 2; 2; 2; 2; 2; 2; 2;
   2; 2; 2; 2; 0; 0; 0; 0; 0; 0; 0; 0]%nat.

(** C121: clients add to a counter, at most [D] up or down at a time, while others set it, delete it and rename it
    away; it was missing or a counter at the beginning.  At any moment it is missing, or what it was set to (or was at
    the beginning, or nothing) and the amounts of some of the calls, each once. *)
Theorem C121_counter :
  forall k scripts s0 B D sched x,
  room_for_all scripts s0 -> envs_ok scripts -> ordinary k ->
  (forall c, issued scripts c -> (exists d, adds_int c k d) \/ takes k c \/ (exists v, sets_to k c v) \/
     ~ may_write (c_req c) k) ->
  (0 <= B)%Z ->
  (forall v, st_keys s0 !! k = Some v \/ (exists c, issued scripts c /\ sets_to k c v) ->
     exists z, v = VInteger z /\ (- B <= z <= B)%Z) ->
  (forall c d, issued scripts c -> adds_int c k d -> - D <= d <= D)%Z ->
  i64_range (B + D * Z.of_nat (length (concat scripts))) ->
  sys_run sched (begin scripts s0) = Some x ->
  exists base out ds, counted_once (adds_there scripts (fun c => adds_int c k)) (puts_there scripts k)
    (dels_there scripts k) (sends_there scripts k) (st_keys s0 !! k) (VInteger 0) (before scripts s0 sched) counted_up
    (has_begun x) (has_returned x) (was_told scripts x) (reads_there scripts k KTInteger) (told_none scripts x)
    (st_keys x.2 !! k) base out ds.
Proof. exact c121_counter. Qed.
Print Assumptions C121_counter.

(** The call that adds 5 returns 5, after the rename; the set drops it, and the call that adds 1 returns 8. *)
Example C121_counter_nonvacuous :
  room_for_all counter_scripts example_store /\ envs_ok counter_scripts /\ ordinary (lit "n") /\
  (forall c, issued counter_scripts c ->
     (exists d, adds_int c (lit "n") d) \/ takes (lit "n") c \/ (exists v, sets_to (lit "n") c v) \/
     ~ may_write (c_req c) (lit "n")) /\
  (forall v, st_keys example_store !! lit "n" = Some v \/
     (exists c, issued counter_scripts c /\ sets_to (lit "n") c v) -> exists z, v = VInteger z /\ (- (10) <= z <= 10)%Z) /\
  (forall c d, issued counter_scripts c -> adds_int c (lit "n") d -> (- (5) <= d <= 5)%Z) /\
  i64_range (10 + 5 * Z.of_nat (length (concat counter_scripts))) /\
  match sys_run once_sched (begin counter_scripts example_store) with
  | Some x =>
      map cl_done x.1 = [[COk (resp_frame rel (RValue (VInteger 8))); COk (resp_frame rel (RValue (VBytes (lit "n"))))];
        [COk (resp_frame rel (RValue (VInteger 5))); COk (resp_frame rel (RValue (VInteger 3)))];
        [COk (resp_frame rel (RValue (VBytes (lit "o")))); COk (resp_frame rel (RValue (VInteger 1)))];
        [COk (resp_frame rel (RValue (VInteger 7))); COk (resp_frame rel (RValue (VInteger 1)))]] /\
      st_keys x.2 !! lit "n" = Some (VInteger 1)
  | None => False
  end.
Proof.
  assert (Hone : adds_int (incr "n") (lit "n") 1).
  { exists CIncrement, None, [lit "n"]. split; [asked|]. left. split_and!; [done|done|by exists []|done]. }
  assert (Hfive : adds_int (incr_by "n" 5) (lit "n") 5).
  { exists CIncrementBy, (Some KTInteger), [lit "n"; i64_enc 5]. split; [asked|].
    right. right. exists 5%Z, [], [].
    split_and!; [by rewrite app_nil_r|vm_compute; split; [discriminate|reflexivity]|by left]. }
  assert (Htwo : adds_int (incr_by "n" (-2)) (lit "n") (-2)).
  { exists CIncrementBy, (Some KTInteger), [lit "n"; i64_enc (-2)]. split; [asked|].
    right. right. exists (-2)%Z, [], [].
    split_and!; [by rewrite app_nil_r|vm_compute; split; [discriminate|reflexivity]|by left]. }
  assert (Hcmd : forall c d, adds_int c (lit "n") d -> r_command (c_req c) = CIncrement \/
    r_command (c_req c) = CDecrement \/ r_command (c_req c) = CIncrementBy \/ r_command (c_req c) = CDecrementBy).
  { intros c d (cmd & kt' & l & (Hq' & _) & Hch). rewrite Hq'.
    destruct Hch as [(-> & _)|[(-> & _)|(? & ? & ? & _ & _ & [[-> _]|[-> _]])]]; auto. }
  split_and!; [roomy|each_call; apply env_std_ok|apply ordinary_dec; vm_compute; reflexivity| | | | |].
  - each_call; [left; by exists 1%Z| |left; by exists 5%Z|left; by exists (-2)%Z| |left; by exists 1%Z| |].
    + right. left. left. exists []. asked.
    + right. left. right. exists (lit "o"). split; [done|exists []; asked].
    + right. right. left. exists (VInteger 7), [i64_enc 7]. split; [asked|by vm_compute].
    + right. right. right. eapply not_may_write; [asked|by vm_compute].
  - intros v [[= <-]|(c & Hc & l & Hq & Hl)]; [exists 10%Z; split; [done|lia]|]. revert c Hc Hq.
    each_call; intros Hq; try (destruct Hq as (Hq & _); discriminate Hq).
    destruct Hq as (_ & Hk & Hq).
    assert (E : kind v = KTInteger).
    { vm_compute in Hk. by injection Hk. }
    destruct v; try done. exists z. split; [done|].
    assert (Hs : asks (c_req (set_int "n" 7)) CSet (Some KTInteger) [lit "n"; i64_enc 7]) by asked.
    destruct Hs as (_ & _ & Hs). pose proof (carries_unique _ _ _ Hq Hs) as [= ->].
    assert (E7 : value_of KTInteger [i64_enc 7] = Some (VInteger 7)) by by vm_compute.
    cbn [kind] in Hl. rewrite E7 in Hl. injection Hl as <-. lia.
  - intros c d Hc. revert c Hc. each_call; intros Ha.
    + rewrite (adds_int_fun _ _ _ _ Ha Hone). lia.
    + by destruct (Hcmd _ _ Ha) as [?|[?|[?|?]]].
    + rewrite (adds_int_fun _ _ _ _ Ha Hfive). lia.
    + rewrite (adds_int_fun _ _ _ _ Ha Htwo). lia.
    + by destruct (Hcmd _ _ Ha) as [?|[?|[?|?]]].
    + rewrite (adds_int_fun _ _ _ _ Ha Hone). lia.
    + by destruct (Hcmd _ _ Ha) as [?|[?|[?|?]]].
    + by destruct (Hcmd _ _ Ha) as [?|[?|[?|?]]].
  - vm_compute. split; [discriminate|reflexivity].
  - vm_compute. split_and!; reflexivity.
Qed.

(** C121 for appends to bytes, a list or a string: the same, the value being made of the items of some of the
    calls, each once. *)
Theorem C121_log :
  forall k scripts s0 t sched x,
  room_for_all scripts s0 -> envs_ok scripts -> ordinary k -> t = KTBytes \/ t = KTList \/ t = KTString ->
  (forall c, issued scripts c -> (exists l, appends c k t l /\ is_Some (append_to (blank t) l)) \/ takes k c \/
     (exists v, sets_to k c v) \/ ~ may_write (c_req c) k) ->
  (forall v, st_keys s0 !! k = Some v \/ (exists c, issued scripts c /\ sets_to k c v) -> kind v = t) ->
  sys_run sched (begin scripts s0) = Some x ->
  exists base out ls, counted_once (adds_there scripts (fun c => appends c k t)) (puts_there scripts k)
    (dels_there scripts k) (sends_there scripts k) (st_keys s0 !! k) (blank t) (before scripts s0 sched) written_on
    (has_begun x) (has_returned x) (was_told scripts x) (reads_there scripts k t) (told_none scripts x)
    (st_keys x.2 !! k) base out ls.
Proof. exact c121_log. Qed.
Print Assumptions C121_log.

Example C121_log_nonvacuous :
  room_for_all log_scripts example_store /\ envs_ok log_scripts /\ ordinary (lit "m") /\
  (forall c, issued log_scripts c ->
     (exists l, appends c (lit "m") KTList l /\ is_Some (append_to (blank KTList) l)) \/ takes (lit "m") c \/
     (exists v, sets_to (lit "m") c v) \/ ~ may_write (c_req c) (lit "m")) /\
  (forall v, st_keys example_store !! lit "m" = Some v \/
     (exists c, issued log_scripts c /\ sets_to (lit "m") c v) -> kind v = KTList) /\
  match sys_run once_sched (begin log_scripts example_store) with
  | Some x =>
      map cl_done x.1 = [[COk (resp_frame rel (RValue (VList [lit "y"; lit "a"])));
          COk (resp_frame rel (RValue (VBytes (lit "m"))))];
        [COk (resp_frame rel (RValue (VList [lit "b"; lit "c"])));
         COk (resp_frame rel (RValue (VList [lit "b"; lit "c"; lit "d"])))];
        [COk (resp_frame rel (RValue (VBytes (lit "o")))); COk (resp_frame rel (RValue (VList [lit "e"])))];
        [COk (resp_frame rel (RValue (VList [lit "y"]))); COk (resp_frame rel (RValue (VList [lit "e"])))]]
  | None => False
  end.
Proof.
  split_and!; [roomy|each_call; apply env_std_ok|apply ordinary_dec; vm_compute; reflexivity| | |].
  - each_call.
    + left. exists [lit "a"]. split; [asked|by eexists].
    + right. left. left. exists []. asked.
    + left. exists [lit "b"; lit "c"]. split; [asked|by eexists].
    + left. exists [lit "d"]. split; [asked|by eexists].
    + right. left. right. exists (lit "o"). split; [done|exists []; asked].
    + left. exists [lit "e"]. split; [asked|by eexists].
    + right. right. left. exists (VList [lit "y"]), [lit "y"]. split; [asked|by vm_compute].
    + right. right. right. eapply not_may_write; [asked|by vm_compute].
  - intros v [[= <-]|(c & Hc & l & Hq & Hl)]; [done|]. revert c Hc Hq.
    each_call; intros Hq; try (destruct Hq as (Hq & _); discriminate Hq).
    destruct Hq as (_ & Hk & Hq). vm_compute in Hk. by injection Hk.
  - vm_compute. reflexivity.
Qed.

(** C121: what [counted_once], the conclusion of the theorems of this file, says of a call that adds, when every call
    that takes away had returned before it began, and no other call that adds can have found nothing: it is counted. *)
Theorem C121_kept :
  forall {A} (adds : nat * nat -> A -> Prop) puts dels sends first zero bef sum begun over says reads none now
  base out ds a d,
  counted_once adds puts dels sends first zero bef sum begun over says reads none now base out ds -> adds a d -> over a ->
  (forall b, may_clear puts dels sends b -> begun b -> bef b a) ->
  (forall b d', adds b d' -> begun b -> b <> a -> bef b a \/ ~ found_nothing adds puts dels sends first bef begun b) ->
  a ∈ out.
Proof. exact @c121_kept. Qed.
Print Assumptions C121_kept.

(** A call (0, 0) deletes the key; when it has returned, a call (1, 0) adds 5; when this has returned, a call (2, 0)
    adds 1; and then a call (3, 0) gets the key. *)
Example C121_kept_nonvacuous :
  let adds := fun (a : nat * nat) (d : Z) => (a = (1, 0) /\ d = 5%Z) \/ (a = (2, 0) /\ d = 1%Z) in
  let puts := fun (_ : nat * nat) (_ : value) => False in
  let dels := fun a : nat * nat => a = (0, 0) in
  let sends := fun _ : nat * nat => False in
  let bef := fun a b : nat * nat => (a.1 < b.1)%nat in
  let any := fun a : nat * nat => (a.1 <= 3)%nat in
  let says := fun (a : nat * nat) v => (a = (1, 0) /\ v = VInteger 5) \/ ((a = (2, 0) \/ a = (3, 0)) /\ v = VInteger 6) in
  let reads := fun a : nat * nat => a = (3, 0) in
  let none := fun _ : nat * nat => False in
  counted_once adds puts dels sends (Some (VInteger 10)) (VInteger 0) bef counted_up any any says reads none
    (Some (VInteger 6)) (VInteger 0) [(1, 0); (2, 0)] [5; 1]%Z /\
  adds (1, 0)%nat 5%Z /\ any (1, 0)%nat /\
  (forall b, may_clear puts dels sends b -> any b -> bef b (1, 0)%nat) /\
  (forall b d, adds b d -> any b -> b <> (1, 0)%nat -> bef b (1, 0)%nat \/
     ~ found_nothing adds puts dels sends (Some (VInteger 10)) bef any b).
Proof.
  intros adds puts dels sends bef any says reads none.
  assert (Hcl : forall t, may_clear puts dels sends t -> t = (0, 0)%nat) by (by intros t [[->|[v []]]|[]]).
  assert (Hcl' : forall t, clears puts dels t -> t = (0, 0)%nat) by (by intros t [->|[v []]]).
  assert (Hzero : forall some past : nat * nat -> Prop, some (0, 0)%nat ->
    base_of puts dels sends (Some (VInteger 10)) (VInteger 0) bef some past (VInteger 0)).
  { intros some past Hs. left. split; [done|]. right. exists (0, 0)%nat. split; [by left; left|done]. }
  assert (Hone : forall past, added_up adds puts dels bef past [(1, 0)%nat] [5%Z]).
  { intros past. split_and!.
    - apply NoDup_singleton.
    - constructor; [by left|constructor].
    - intros a t _ ->%Hcl' _ H. unfold bef in H. cbn in H. lia.
    - intros [|i] [|j] a b; cbn; intros [= <-] [= <-]; unfold bef; cbn; lia. }
  assert (Htwo : forall past, added_up adds puts dels bef past [(1, 0); (2, 0)]%nat [5; 1]%Z).
  { intros past. split_and!.
    - apply NoDup_cons. split; [set_solver|apply NoDup_singleton].
    - constructor; [by left|constructor; [by right|constructor]].
    - intros a t _ ->%Hcl' _ H. unfold bef in H. cbn in H. lia.
    - intros [|[|i]] [|[|j]] a b; cbn; intros [= <-] [= <-]; unfold bef; cbn; lia. }
  assert (Hsee : forall a : nat * nat, (2 <= a.1)%nat ->
    may_see adds puts dels sends (Some (VInteger 10)) (VInteger 0) bef any a (VInteger 0) [(1, 0); (2, 0)]%nat [5; 1]%Z).
  { intros a Ha. unfold bef, any. split_and!.
    - apply Hzero. cbn. lia.
    - apply Htwo.
    - intros b [->|[->|[]%elem_of_nil]%elem_of_cons]%elem_of_cons; cbn; lia.
    - intros b d [[-> _]|[-> _]] _ Hn; set_solver. }
  split_and!; [|by left|unfold any; cbn; lia| |].
  - split_and!.
    + apply Hzero. unfold any. cbn. lia.
    + apply Htwo.
    + by left.
    + intros [|[|i]] a; cbn; intros [= <-] _; [by left|right]. split; [by left|done].
    + intros a d [[-> ->]|[-> ->]] _.
      * exists (VInteger 0), [], [5%Z]. split; [|by left]. unfold bef, any. split_and!.
        -- apply Hzero. cbn. lia.
        -- apply Hone.
        -- intros b ->%elem_of_list_singleton; cbn; lia.
        -- intros b d [[-> _]|[-> _]] Hb Hn; [set_solver|cbn in Hb; lia].
      * exists (VInteger 0), [(1, 0)%nat], [5; 1]%Z. split; [by apply Hsee; cbn; lia|right]. split; [by left|done].
    + intros a d [[-> ->]|[-> ->]] _ Hn; set_solver.
    + intros a -> _. left. exists (VInteger 0), [(1, 0); (2, 0)]%nat, [5; 1]%Z.
      split; [by apply Hsee; cbn; lia|right]. split; [by right|done].
  - intros b ->%Hcl _. unfold bef. cbn. lia.
  - intros b d [[-> ->]|[-> ->]] _ Hb; [done|right]. intros [[? _]|(t & ->%Hcl & _ & _ & H)]; [done|].
    apply (H (1, 0)%nat 5%Z); unfold bef; cbn; [by left|lia|lia].
Qed.

(** C121 for counters, with the locks of the map. *)
Theorem C121_counter_locked :
  forall sh k scripts s0 B D lsched x,
  room_for_all scripts s0 -> envs_ok scripts -> ordinary k ->
  (forall c, issued scripts c -> (exists d, adds_int c k d) \/ takes k c \/ (exists v, sets_to k c v) \/
     ~ may_write (c_req c) k) ->
  (0 <= B)%Z ->
  (forall v, st_keys s0 !! k = Some v \/ (exists c, issued scripts c /\ sets_to k c v) ->
     exists z, v = VInteger z /\ (- B <= z <= B)%Z) ->
  (forall c d, issued scripts c -> adds_int c k d -> - D <= d <= D)%Z ->
  i64_range (B + D * Z.of_nat (length (concat scripts))) ->
  lsys_run sh lsched (lbegin scripts s0) = Some x ->
  exists now base out ds, (unlocked sh x k -> st_keys x.2 !! k = now) /\
    counted_once (adds_there scripts (fun c => adds_int c k)) (puts_there scripts k)
      (dels_there scripts k) (sends_there scripts k) (st_keys s0 !! k) (VInteger 0) (lbefore sh scripts s0 lsched)
      counted_up (lhas_begun x) (lhas_returned x) (lwas_told scripts x) (reads_there scripts k KTInteger) (ltold_none scripts x)
      now base out ds.
Proof. exact c121_counter_locked. Qed.
Print Assumptions C121_counter_locked.

(** The clients of [C121_counter_nonvacuous], with locks: the delete finds nothing. *)
Example C121_counter_locked_nonvacuous :
  match lsys_run one_shard (map (fun i => (i, []))
    [0; 0; 0; 1; 2; 0; 3; 0; 1; 0; 1; 0; 1; 0; 1; 2; 0; 1; 2; 0; 1; 2; 3; 1; 3; 1; 3; 0; 1; 0; 0; 1; 0; 1; 0; 1;
     2; 0; 2; 0; 2; 3; 3; 3; 1; 1; 1; 2; 2; 2; 3; 3; 3; 1; 1; 1; 1; 2; 1; 2; 1; 2; 3; 1; 2; 3; 1; 2; 3; 2; 3; 2;
     3; 2; 3; 2; 3; 2; 3; 2; 2; 2; 2; 2; 2; 3; 3; 3; 3; 3; 3; 3; 3]%nat)
    (lbegin counter_scripts example_store) with
  | Some x =>
      map lc_done x.1 =
       [[COk (resp_frame (env_std false) (RValue (VInteger 11)));
         CErr EPreconditionFailed []];
        [COk (resp_frame (env_std false) (RValue (VInteger 16)));
         COk (resp_frame (env_std false) (RValue (VInteger (-2))))];
        [COk (resp_frame (env_std false) (RValue (VBytes (lit "o"))));
         COk (resp_frame (env_std false) (RValue (VInteger 8)))];
        [COk (resp_frame (env_std false) (RValue (VInteger 7)));
         COk (resp_frame (env_std false) (RValue (VInteger 8)))]] /\
      st_keys x.2 !! lit "n" = Some (VInteger 8)
  | None => False
  end.
Proof. vm_compute. split_and!; reflexivity. Qed.

(** C121 for appends, with the locks of the map. *)
Theorem C121_log_locked :
  forall sh k scripts s0 t lsched x,
  room_for_all scripts s0 -> envs_ok scripts -> ordinary k -> t = KTBytes \/ t = KTList \/ t = KTString ->
  (forall c, issued scripts c -> (exists l, appends c k t l /\ is_Some (append_to (blank t) l)) \/ takes k c \/
     (exists v, sets_to k c v) \/ ~ may_write (c_req c) k) ->
  (forall v, st_keys s0 !! k = Some v \/ (exists c, issued scripts c /\ sets_to k c v) -> kind v = t) ->
  lsys_run sh lsched (lbegin scripts s0) = Some x ->
  exists now base out ls, (unlocked sh x k -> st_keys x.2 !! k = now) /\
    counted_once (adds_there scripts (fun c => appends c k t)) (puts_there scripts k)
      (dels_there scripts k) (sends_there scripts k) (st_keys s0 !! k) (blank t) (lbefore sh scripts s0 lsched)
      written_on (lhas_begun x) (lhas_returned x) (lwas_told scripts x) (reads_there scripts k t) (ltold_none scripts x)
      now base out ls.
Proof. exact c121_log_locked. Qed.
Print Assumptions C121_log_locked.

(** The clients of [C121_log_nonvacuous], with locks: the delete finds nothing. *)
Example C121_log_locked_nonvacuous :
  match lsys_run one_shard (map (fun i => (i, []))
    [0; 0; 0; 1; 2; 0; 3; 0; 1; 0; 1; 0; 1; 0; 1; 2; 0; 1; 2; 0; 1; 2; 3; 1; 3; 1; 3; 0; 1; 0; 0; 1; 0; 1; 0; 1;
     2; 0; 2; 0; 2; 3; 3; 3; 1; 1; 1; 2; 2; 2; 3; 3; 3; 1; 1; 1; 1; 2; 1; 2; 1; 2; 3; 1; 2; 3; 1; 2; 3; 2; 3; 2;
     3; 2; 3; 2; 3; 2; 3; 2; 2; 2; 2; 2; 2; 3; 3; 3; 3; 3; 3; 3; 3]%nat)
    (lbegin log_scripts example_store) with
  | Some x =>
      map lc_done x.1 =
       [[COk (resp_frame (env_std false) (RValue (VList [lit "x"; lit "a"])));
         CErr EPreconditionFailed []];
        [COk (resp_frame (env_std false) (RValue (VList [lit "x"; lit "a"; lit "b"; lit "c"])));
         COk (resp_frame (env_std false) (RValue (VList [lit "d"])))];
        [COk (resp_frame (env_std false) (RValue (VBytes (lit "o"))));
         COk (resp_frame (env_std false) (RValue (VList [lit "y"; lit "e"])))];
        [COk (resp_frame (env_std false) (RValue (VList [lit "y"])));
         COk (resp_frame (env_std false) (RValue (VList [lit "y"; lit "e"])))]] /\
      st_keys x.2 !! lit "n" = Some (VInteger 10)
  | None => False
  end.
Proof. vm_compute. split_and!; reflexivity. Qed.

(** C121 for tasks that share a memory client, and a counter. *)
Theorem C121_tasks_counter :
  forall sh tasks k s0 B D sched x,
  tasks_fit tasks s0 -> sendable tasks -> ordinary k -> k <> [] ->
  (forall e c, made_by_one tasks e c -> (exists d, adds_amount c k d) \/ takes_away k c \/
     (exists v, sets_value c k v) \/ ~ changes c k) ->
  (0 <= B)%Z -> (0 <= D)%Z ->
  (forall v, st_keys s0 !! k = Some v \/ (exists e c, made_by_one tasks e c /\ sets_value c k v) ->
     exists z, v = VInteger z /\ (- B <= z <= B)%Z) ->
  (forall e c d, made_by_one tasks e c -> adds_amount c k d -> - D <= d <= D)%Z ->
  i64_range (B + D * Z.of_nat (length (concat tasks))) ->
  at_work sh tasks s0 sched = Some x ->
  exists now base out ds, (unlocked sh x k -> st_keys x.2 !! k = now) /\
    counted_once (task_adds tasks k) (task_puts tasks k) (task_dels tasks k) (task_sends tasks k) (st_keys s0 !! k)
      (VInteger 0) (earlier sh tasks s0 sched) counted_up (task_begun tasks x) (task_over tasks x) (task_told tasks x)
      (task_reads tasks k KTInteger) (task_none tasks x) now base out ds.
Proof. exact c121_tasks_counter. Qed.
Print Assumptions C121_tasks_counter.

Example C121_tasks_counter_nonvacuous :
  tasks_fit counter_tasks example_store /\ sendable counter_tasks /\ ordinary (lit "n") /\
  (forall e c, made_by_one counter_tasks e c -> (exists d, adds_amount c (lit "n") d) \/ takes_away (lit "n") c \/
     (exists v, sets_value c (lit "n") v) \/ ~ changes c (lit "n")) /\
  (forall v, st_keys example_store !! lit "n" = Some v \/
     (exists e c, made_by_one counter_tasks e c /\ sets_value c (lit "n") v) ->
     exists z, v = VInteger z /\ (- (10) <= z <= 10)%Z) /\
  (forall e c d, made_by_one counter_tasks e c -> adds_amount c (lit "n") d -> (- (5) <= d <= 5)%Z) /\
  i64_range (10 + 5 * Z.of_nat (length (concat counter_tasks))) /\
  match at_work one_shard counter_tasks example_store counter_sched with
  | Some x =>
      zip_with (fun h cl => results h (lc_done cl)) counter_tasks x.1 =
        [[ROk (RpValue (VInteger 11)); RErr (CERunningCommand EKeyNonexistent)];
         [ROk (RpValue (VInteger 16)); RErr (CERunningCommand EPreconditionFailed); ROk (RpValue (VInteger 5))];
         [ROk (RpValue (VInteger 7)); ROk (RpBytes (lit "o"))]] /\
      st_keys x.2 !! lit "n" = None
  | None => False
  end.
Proof.
  split_and!.
  - roomy.
  - each_task_call; (split; [apply env_std_ok|vm_compute; discriminate]).
  - apply ordinary_dec; vm_compute; reflexivity.
  - each_task_call.
    + left. exists 1%Z. left. split; [by left|done].
    + right. right. right. set_solver.
    + left. exists 5%Z. right. by left.
    + right. left. by left.
    + left. exists (-2)%Z. right. by right.
    + right. right. left. exists (VInteger 7). by left.
    + right. left. right. by exists (lit "o").
  - intros v [[= <-]|(e & c & Hc & Hv)]; [exists 10%Z; split; [done|lia]|]. revert e c Hc Hv.
    each_task_call; intros [E|E]; try discriminate E. injection E as <-. exists 7%Z. split; [done|lia].
  - intros e c d Hm. revert e c Hm.
    each_task_call; intros [[[E|[E|E]] ->]|[E|E]]; try discriminate E; try lia; injection E as <-; lia.
  - vm_compute. split; [discriminate|reflexivity].
  - vm_compute. split_and!; reflexivity.
Qed.

(** C121 for tasks that share a memory client, and bytes, a list or a string. *)
Theorem C121_tasks_log :
  forall sh tasks k s0 t sched x,
  tasks_fit tasks s0 -> sendable tasks -> ordinary k -> k <> [] ->
  t = KTBytes \/ t = KTList \/ t = KTString ->
  (forall e c, made_by_one tasks e c -> (exists v, appends_value c k v /\ kind v = t /\ value_wf v) \/ takes_away k c \/
     (exists v, sets_value c k v /\ (refused c = None -> sound v)) \/ ~ changes c k) ->
  (forall v, st_keys s0 !! k = Some v \/ (exists e c, made_by_one tasks e c /\ sets_value c k v) -> kind v = t) ->
  at_work sh tasks s0 sched = Some x ->
  exists now base out vs, (unlocked sh x k -> st_keys x.2 !! k = now) /\
    counted_once (task_appends tasks k) (task_puts tasks k) (task_dels tasks k) (task_sends tasks k) (st_keys s0 !! k)
      (blank t) (earlier sh tasks s0 sched) appended_to (task_begun tasks x) (task_over tasks x) (task_hears tasks x)
      (task_reads tasks k t) (task_none tasks x) now base out vs.
Proof. exact c121_tasks_log. Qed.
Print Assumptions C121_tasks_log.

Example C121_tasks_log_nonvacuous :
  tasks_fit log_tasks example_store /\ sendable log_tasks /\ ordinary (lit "m") /\
  (forall e c, made_by_one log_tasks e c ->
     (exists v, appends_value c (lit "m") v /\ kind v = KTList /\ value_wf v) \/ takes_away (lit "m") c \/
     (exists v, sets_value c (lit "m") v /\ (refused c = None -> sound v)) \/ ~ changes c (lit "m")) /\
  (forall v, st_keys example_store !! lit "m" = Some v \/
     (exists e c, made_by_one log_tasks e c /\ sets_value c (lit "m") v) -> kind v = KTList) /\
  match at_work one_shard log_tasks example_store log_sched with
  | Some x =>
      zip_with (fun h cl => results h (lc_done cl)) log_tasks x.1 =
        [[ROk (RpValue (VList [lit "x"; lit "a"])); RErr (CERunningCommand EKeyNonexistent)];
         [ROk (RpBytes (lit "m")); ROk (RpValue (VList [lit "y"; lit "b"; lit "c"]))];
         [ROk (RpValue (VList [lit "y"])); ROk (RpBytes (lit "o"))]]
  | None => False
  end.
Proof.
  split_and!.
  - roomy.
  - each_task_call; (split; [apply env_std_ok|vm_compute; discriminate]).
  - apply ordinary_dec; vm_compute; reflexivity.
  - each_task_call.
    + left. eexists. split; [by left|]. by vm_compute.
    + right. right. right. set_solver.
    + right. left. by left.
    + left. eexists. split; [by right|]. by vm_compute.
    + right. right. left. exists (VList [lit "y"]). split; [by left|]. intros _. by apply ok_value_sound.
    + right. left. right. by exists (lit "o").
  - intros v [[= <-]|(e & c & Hc & Hv)]; [done|]. revert e c Hc Hv.
    each_task_call; intros [E|E]; try discriminate E. by injection E as <-.
  - vm_compute. reflexivity.
Qed.
