(** Where stored and answered data comes from: C112.
    The vocabulary is in [OriginSpec]; clients that issue one call after another in [Scripts], and with the
    map's locks in [LockScripts].  For tasks that share a memory client the vocabulary is in [MemOriginSpec]. *)
From Coq Require Import String.
From Verif Require Import Bytes BytesFacts Utf8 Float64 Value CommandId Request Response RespContext WireSpec
  RequestSpec EngineSpec Metrics Prog Commands HistorySpec EngineProps Locks LockSpec LockScripts LockScriptSpec
  Concurrent ConcSpec ConcFacts Scripts LinSpec LinFacts KeyLinSpec KeyLin KeyLinFacts OriginSpec OriginFacts
  Client ClientSpec ClientProps MemTasks MemTaskSpec MemAppendSpec MemRaceSpec MemOriginSpec MemOrigin.
From stdpp Require Import gmap list.
From Coq Require Import NArith ZArith Lia.

(** The state and the clients of the examples: one appends to a list, one renames it and reads it. *)
Definition example_store : store := store_of [(lit "l", VList [lit "x"]); (lit "n", VInteger 5)].
Definition example_scripts : list (list call) :=
  [[ask CAppend (Some KTList) [lit "l"; lit "y"; lit "z"]];
   [ask CRename None [lit "l"; lit "m"]; ask CGet None [lit "m"]]].
Definition example_schedule : list nat := ([0; 1; 0; 0; 0] ++ replicate 10 1)%nat.

(** C112: whatever the clients do and however their steps interleave, what is stored at a key is made of
    words that were stored there at the beginning, that a client sent to be set or appended there, or that
    could get to a key a client asked to rename to it. *)
Theorem C112_stored :
  forall scripts s0 sched x k v,
  sys_run sched (begin scripts s0) = Some x -> st_keys x.2 !! k = Some v -> made_of (origin scripts s0 k) v.
Proof. exact c112_stored. Qed.
Print Assumptions C112_stored.

(** C112: a key that is there was there at the beginning, or is named by a request that may change it. *)
Theorem C112_keys :
  forall scripts s0 sched x k v,
  sys_run sched (begin scripts s0) = Some x -> st_keys x.2 !! k = Some v ->
  (exists v0, st_keys s0 !! k = Some v0) \/ (exists c, issued scripts c /\ may_write (c_req c) k).
Proof. exact c112_keys. Qed.
Print Assumptions C112_keys.

(** C112: an answer other than to Stats is made of words of the request, or of words that may get to the
    key it asks about.  A call that fails adds nothing to the buffer it was given. *)
Theorem C112_answered :
  forall scripts s0 sched x a c r,
  sys_run sched (begin scripts s0) = Some x -> call_at scripts a = Some c -> env_ok (c_env c) ->
  r_command (c_req c) <> CStats -> returned x a r ->
  match r with
  | CPanic => True
  | CErr _ out => out = c_res c
  | COk out => exists v, made_of (may_answer scripts s0 c) v /\ out = c_res c ++ resp_frame (c_env c) (RValue v)
  end.
Proof. exact c112_answered. Qed.
Print Assumptions C112_answered.

Example C112_nonvacuous :
  match sys_run example_schedule (begin example_scripts example_store) with
  | Some x => map (fun cl => map is_ok (cl_done cl)) x.1 = [[true]; [true; true]] /\
              st_keys x.2 !! lit "m" = Some (VList [lit "x"; lit "y"; lit "z"]) /\
              st_keys x.2 !! lit "l" = None
  | None => False
  end /\
  origin example_scripts example_store (lit "m") (lit "z") /\
  ~ gives example_scripts (lit "m") (lit "z") /\
  ~ origin example_scripts example_store (lit "m") (lit "w").
Proof.
  split_and!.
  - vm_compute. split_and!; reflexivity.
  - eapply (origin_renamed _ _ (lit "l")).
    + exists (ask CRename None [lit "l"; lit "m"]). split_and!; [|reflexivity..]. by exists (1, 0)%nat.
    + apply origin_given. exists (ask CAppend (Some KTList) [lit "l"; lit "y"; lit "z"]), 2%N.
      split_and!; [by exists (0, 0)%nat|by right|intros [E|[E|E]]; discriminate E|reflexivity|lia|reflexivity].
  - intros (c & i & Hc%issued_concat & Hcmd & _ & Hk & _). cbn [example_scripts concat app] in Hc.
    repeat (apply elem_of_cons in Hc as [->|Hc]); [..|by apply elem_of_nil in Hc].
    + vm_compute in Hk. discriminate.
    + vm_compute in Hcmd. by destruct Hcmd.
    + vm_compute in Hcmd. by destruct Hcmd.
  - assert (forall k w, origin example_scripts example_store k w ->
      w = lit "x" \/ w = lit "y" \/ w = lit "z") as H.
    { induction 1 as [k v w Hv Hw|k w (c & i & Hc%issued_concat & Hcmd & _ & Hk & Hi & Hw)|]; [| |done].
      - unfold example_store, store_of in Hv. cbn [st_keys list_to_map foldr fst snd] in Hv.
        apply lookup_insert_Some in Hv as [[_ <-]|[_ Hv]].
        + apply elem_of_list_singleton in Hw. auto.
        + apply lookup_insert_Some in Hv as [[_ <-]|[_ Hv]]; [done|]. by rewrite lookup_empty in Hv.
      - cbn [example_scripts concat app] in Hc.
        repeat (apply elem_of_cons in Hc as [->|Hc]); [..|by apply elem_of_nil in Hc].
        2-3: vm_compute in Hcmd; by destruct Hcmd.
        assert (Ha : asks (c_req (ask CAppend (Some KTList) [lit "l"; lit "y"; lit "z"])) CAppend (Some KTList)
          [lit "l"; lit "y"; lit "z"]) by (apply a_request_asks; [reflexivity|vm_compute; discriminate|vm_compute; reflexivity]).
        destruct Ha as (_ & _ & Hl & Hcar). specialize (Hcar i).
        rewrite Hw in Hcar. destruct (N.to_nat i) as [|[|[|j]]] eqn:E; [lia| | |by destruct j].
        + right. left. by injection Hcar.
        + right. right. by injection Hcar. }
    intros [E|[E|E]]%H; discriminate.
Qed.

(** C112, with the locks of the map: the same, for the keys that nobody has locked for writing. *)
Theorem C112_locked :
  forall sh scripts s0 lsched x,
  lsys_run sh lsched (lbegin scripts s0) = Some x ->
  (forall k v, unlocked sh x k -> st_keys x.2 !! k = Some v ->
     made_of (origin scripts s0 k) v /\
     ((exists v0, st_keys s0 !! k = Some v0) \/ (exists c, issued scripts c /\ may_write (c_req c) k))) /\
  (forall a c r, call_at scripts a = Some c -> env_ok (c_env c) -> r_command (c_req c) <> CStats ->
     lreturned x a r ->
     match r with
     | CPanic => True
     | CErr _ out => out = c_res c
     | COk out => exists v, made_of (may_answer scripts s0 c) v /\ out = c_res c ++ resp_frame (c_env c) (RValue v)
     end).
Proof. exact c112_locked. Qed.
Print Assumptions C112_locked.

Example C112_locked_nonvacuous :
  match lsys_run (Shards (fun _ => 0%N) (fun _ => 0%N))
    (map (fun i => (i, [])) ([1] ++ replicate 9 0 ++ replicate 24 1)%nat) (lbegin example_scripts example_store) with
  | Some x => map (fun cl => map is_ok (lc_done cl)) x.1 = [[true]; [true; true]] /\ Forall lfinished x.1 /\
              st_keys x.2 !! lit "m" = Some (VList [lit "x"; lit "y"; lit "z"])
  | None => False
  end.
Proof. vm_compute. split_and!; try reflexivity. repeat constructor. Qed.

(** C112 for tasks that share a memory client: what is stored at a key is made of words that were there, that a
    task set or appended there, or that may get to a key a task renames to it.  What a call returns is read
    from an answer made of its own words or of such words, and is that answer if it fits the response format. *)
Theorem C112_tasks :
  forall sh tasks s0 sched x,
  sendable tasks -> at_work sh tasks s0 sched = Some x ->
  (forall k v, unlocked sh x k -> st_keys x.2 !! k = Some v ->
     made_of (task_origin tasks s0 k) v /\
     (is_Some (st_keys s0 !! k) \/ exists e c, made_by_one tasks e c /\ changes c k)) /\
  (forall a e c p, task_call tasks a = Some (e, c) -> c <> KStats -> got tasks x a (ROk p) ->
     exists v u, made_of (may_return tasks s0 c) v /\ read_from e v u /\ (sound v -> u = v) /\ reply_of p u).
Proof. exact c112_tasks. Qed.
Print Assumptions C112_tasks.

(** One task sets a map and a number, one renames the map and reads it and its keys. *)
Definition word_tasks : list task :=
  [[(env_std true, KSet (lit "p") (VMap {[lit "x" := lit "y"]})); (env_std true, KSetTyped (lit "n") (VInteger 97))];
   [(env_std true, KRename (lit "p") (lit "q")); (env_std true, KGet (lit "q")); (env_std true, KKeys (lit "q"))]].
Example C112_tasks_nonvacuous :
  sendable word_tasks /\
  match at_work (Shards (fun _ => 0%N) (fun _ => 0%N)) word_tasks example_store
    (map (fun i => (i, [])) (replicate 20 0 ++ [1] ++ replicate 16 0 ++ replicate 35 1)%nat) with
  | Some x =>
      match zip_with (fun h cl => results h (lc_done cl)) word_tasks x.1 with
      | [[ROk (RpValue _); ROk (RpValue (VInteger 97))];
         [ROk (RpBytes b); ROk (RpValue (VMap m)); ROk (RpItems l)]] =>
        b = lit "q" /\ m !! lit "x" = Some (lit "y") /\ l = [lit "x"]
      | _ => False
      end
  | None => False
  end /\
  task_origin word_tasks example_store (lit "q") (lit "x") /\
  ~ task_gives word_tasks (lit "q") (lit "x") /\
  (forall w, ~ task_origin word_tasks example_store (lit "n") w) /\
  ~ task_origin word_tasks example_store (lit "q") (lit "z").
Proof.
  assert (Hcalls : forall (P : client_call -> Prop),
    P (KSet (lit "p") (VMap {[lit "x" := lit "y"]})) -> P (KSetTyped (lit "n") (VInteger 97)) ->
    P (KRename (lit "p") (lit "q")) -> P (KGet (lit "q")) -> P (KKeys (lit "q")) ->
    forall e c, made_by_one word_tasks e c -> e = env_std true /\ P c).
  { intros P H1 H2 H3 H4 H5 e c [[i j] H]. unfold task_call in H. cbn [fst snd] in H.
    destruct i as [|[|i]]; cbn in H; try done; destruct j as [|[|[|j]]]; cbn in H; try done; by injection H as <- <-. }
  assert (Hgives : forall k w, task_gives word_tasks k w -> k = lit "p" /\ (w = lit "x" \/ w = lit "y")).
  { intros k w (e & c & v & Hm & Hv & Hw). revert Hv Hw.
    apply (Hcalls (fun c => sets_value c k v \/ appends_value c k v -> in_value v w -> k = lit "p" /\ (w = lit "x" \/ w = lit "y")))
      in Hm as [_ Hm]; [exact Hm|..]; intros [[E|E]|[E|E]]; try discriminate E; injection E as <- <-; cbn.
    - intros (a & b & [<- <-]%lookup_singleton_Some & Hw). auto.
    - done. }
  assert (Hmoves : forall e a b, made_by_one word_tasks e (KRename a b) -> a = lit "p" /\ b = lit "q").
  { intros e a b Hm.
    apply (Hcalls (fun c => c = KRename a b -> a = lit "p" /\ b = lit "q")) in Hm as [_ Hm]; [by apply Hm|..];
      intros E; try discriminate E. by injection E as <- <-. }
  assert (Ho : forall k w, task_origin word_tasks example_store k w ->
    (k = lit "l" /\ w = lit "x") \/ ((k = lit "p" \/ k = lit "q") /\ (w = lit "x" \/ w = lit "y"))).
  { induction 1 as [k v w Hv Hw|k w Hg|e a b w Hr _ IH].
    - unfold example_store, store_of in Hv. cbn [st_keys list_to_map foldr fst snd] in Hv.
      apply lookup_insert_Some in Hv as [[<- <-]|[_ Hv]].
      + apply elem_of_list_singleton in Hw. auto.
      + apply lookup_insert_Some in Hv as [[_ <-]|[_ Hv]]; [done|]. by rewrite lookup_empty in Hv.
    - destruct (Hgives _ _ Hg) as [-> Hw]. auto.
    - destruct (Hmoves _ _ _ Hr) as [-> ->]. destruct IH as [[E _]|[_ Hw]]; [discriminate E|auto]. }
  split_and!.
  - intros e c Hm. apply (Hcalls (fun c => (sends c <= 255)%N)) in Hm as [-> Hm]; [|vm_compute; discriminate..].
    split; [apply env_std_ok|done].
  - vm_compute. split_and!; reflexivity.
  - eapply task_origin_renamed; [by exists (1, 0)%nat|]. apply task_origin_given.
    eexists _, _, _. split_and!; [by exists (0, 0)%nat|left; by left|]. exists (lit "x"), (lit "y"). by vm_compute; auto.
  - intros [E _]%Hgives. discriminate E.
  - intros w [[E _]|[[E|E] _]]%Ho; discriminate E.
  - intros [[E _]|[_ [E|E]]]%Ho; discriminate E.
Qed.
