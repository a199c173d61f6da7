(** Commands that look at the data more than once: C111.
    The vocabulary is in [MomentSpec], [ConcSpec] and [HistorySpec]; the steps that are interleaved in [Prog]. *)
From Coq Require Import String.
From Verif Require Import Bytes BytesFacts Value CommandId Request RequestSpec Response RespContext Metrics Prog Commands
  EngineProps HistorySpec Concurrent ConcSpec ConcFacts ConcProps MomentSpec MomentFacts.
From stdpp Require Import gmap list.
From Coq Require Import NArith ZArith Lia.

Ltac asked := apply a_request_asks; [reflexivity|vm_compute; discriminate|vm_compute; reflexivity].
Ltac roomy := apply store_of_room_for; vm_compute; reflexivity.
Ltac scheduled := apply reaches_after; vm_compute; reflexivity.

Definition one_a : store := store_of [(lit "a", VBytes (lit "x"))].
Definition both : call := ask CExists None [lit "a"; lit "b"].
Definition moved : list call := [both; ask CDelete None [lit "a"]; ask CSet (Some KTString) [lit "b"; lit "y"]].
Definition moving : list nat := [0; 1; 1; 2; 2; 2; 2; 2; 0; 0]%nat.

(** C111 is false of [exists]: it answers that both keys are there although at no moment they were. *)
Theorem C111_exists_refuted :
  exists cs s0 i c a b sched ts s r,
    room_for cs s0 /\ cs !! i = Some c /\ asks (c_req c) CExists None [a; b] /\
    reaches cs s0 sched ts s /\ ts !! i = Some (PRet r) /\ responds (c_env c) (c_res c) (VBoolean true) r /\
    forall n x, pool_run (take n sched) (start cs s0) = Some x -> ~ (there None a x.2 /\ there None b x.2).
Proof.
  exists moved, one_a, 0%nat, both, (lit "a"), (lit "b"), moving, (after moved one_a moving).1, (after moved one_a moving).2,
    (COk (write_bool [] true)).
  split_and!; [roomy|done|asked|scheduled|vm_compute; reflexivity|by apply responds_bool|].
  assert (K : forall n, (n <= 10)%nat ->
    match pool_run (take n moving) (start moved one_a) with
    | Some x => st_keys x.2 !! lit "a" = None \/ st_keys x.2 !! lit "b" = None
    | None => True
    end).
  { intros n Hn. do 11 (destruct n as [|n]; [vm_compute; first [by left|by right]|]). lia. }
  intros n x Hx [(v & Hv & _) (w & Hw & _)].
  assert (E : take n moving = take (Nat.min n 10) moving) by (by do 11 (destruct n as [|n]; [done|])).
  specialize (K (Nat.min n 10) ltac:(lia)). rewrite <-E, Hx, Hv, Hw in K. by destruct K.
Qed.
Print Assumptions C111_exists_refuted.

Definition asking : list call := [ask CStats None []; ask CGet None [lit "b"]; ask CGet None [lit "a"]].
Definition counting : list nat := [0; 1; 1; 2; 2; 0; 0; 0]%nat.

(** and of [stats]: it answers that a command was successful and none failed although at no moment
    this was so. *)
Theorem C111_stats_refuted :
  exists cs s0 i c sched ts s r (d : gmap bytes bytes),
    room_for cs s0 /\ cs !! i = Some c /\ asks (c_req c) CStats None [] /\
    reaches cs s0 sched ts s /\ ts !! i = Some (PRet r) /\ responds (c_env c) (c_res c) (VMap d) r /\
    d !! lit "commands_successful" = Some (i64_enc 1) /\ d !! lit "commands_errored" = None /\
    forall n x, pool_run (take n sched) (start cs s0) = Some x ->
      (0 < count x.2 MCommandsSuccessful)%N -> (0 < count x.2 MCommandsErrored)%N.
Proof.
  exists asking, one_a, 0%nat, (ask CStats None []), counting, (after asking one_a counting).1, (after asking one_a counting).2,
    (cres_of (write_map (env_std false) [] {[lit "commands_successful" := i64_enc 1]})),
    {[lit "commands_successful" := i64_enc 1]}.
  split_and!; [roomy|done|exact stats_asks|scheduled|vm_compute; reflexivity| |apply lookup_singleton|
    by rewrite lookup_singleton_ne by (vm_compute; discriminate)|].
  { apply (EngineFacts.responds_copy _ _ (VMap _)). apply env_std_ok. }
  assert (K : forall n, (n <= 8)%nat ->
    match pool_run (take n counting) (start asking one_a) with
    | Some x => count x.2 MCommandsSuccessful = 0%N \/ count x.2 MCommandsErrored = 1%N
    | None => True
    end).
  { intros n Hn. do 9 (destruct n as [|n]; [vm_compute; first [by left|by right]|]). lia. }
  intros n x Hx.
  assert (E : take n counting = take (Nat.min n 8) counting) by (by do 9 (destruct n as [|n]; [done|])).
  specialize (K (Nat.min n 8) ltac:(lia)). rewrite <-E, Hx in K. destruct K as [-> | ->]; lia.
Qed.
Print Assumptions C111_stats_refuted.

Definition measuring : list call := [ask CLength None [lit "a"]; ask CSet (Some KTString) [lit "a"; lit "y"]].
Definition replacing : list nat := [0; 1; 1; 1; 1; 1; 0; 0]%nat.

(** and of [length]: while one client replaces bytes by a string, another is told that the type is
    different, which [length] never answers in any state. *)
Theorem C111_length_refuted :
  exists cs s0 i c k sched ts s,
    room_for cs s0 /\ cs !! i = Some c /\ asks (c_req c) CLength None [k] /\
    reaches cs s0 sched ts s /\ ts !! i = Some (PRet (CErr EKeyTypeDifferent (c_res c))) /\
    forall e s res out, room s -> (dispatch e s (c_req c) res).2 <> CErr EKeyTypeDifferent out.
Proof.
  exists measuring, one_a, 0%nat, (ask CLength None [lit "a"]), (lit "a"), replacing,
    (after measuring one_a replacing).1, (after measuring one_a replacing).2.
  split_and!; [roomy|done|asked|scheduled|vm_compute; reflexivity|].
  intros e s res out Hs. apply c111_length_alone; [done|by left|done].
Qed.
Print Assumptions C111_length_refuted.

(** What holds: when [exists] or [is] answers true, every key was there, with the type, at some moment
    of the call, *)
Theorem C111_true_partial :
  forall cs s0 i c t ks sched ts s r,
  room_for cs s0 -> cs !! i = Some c -> question (c_req c) t ks ->
  reaches cs s0 sched ts s -> ts !! i = Some (PRet r) ->
  responds (c_env c) (c_res c) (VBoolean true) r ->
  forall k, k ∈ ks -> exists s1, moment i sched (start cs s0) s1 /\ there t k s1.
Proof. exact c111_true. Qed.
Print Assumptions C111_true_partial.

(** any other answer is the one of a single moment, at which the command could have been run alone, *)
Theorem C111_false_partial :
  forall cs s0 i c t ks sched ts s r,
  room_for cs s0 -> cs !! i = Some c -> question (c_req c) t ks ->
  reaches cs s0 sched ts s -> ts !! i = Some (PRet r) ->
  ~ responds (c_env c) (c_res c) (VBoolean true) r ->
  linearized i c sched (start cs s0) r.
Proof. exact c111_false. Qed.
Print Assumptions C111_false_partial.

(** and so is every answer if keys that are there stay there. *)
Theorem C111_stays_partial :
  forall cs s0 i c t ks sched ts s r,
  room_for cs s0 -> cs !! i = Some c -> question (c_req c) t ks ->
  (forall k, k ∈ ks -> stays sched (start cs s0) t k) ->
  reaches cs s0 sched ts s -> ts !! i = Some (PRet r) ->
  linearized i c sched (start cs s0) r.
Proof. exact c111_stays. Qed.
Print Assumptions C111_stays_partial.

(** [length] and [keys] without a type answer for a single moment unless they report a different type, *)
Theorem C111_length_partial :
  forall cs s0 i c sched ts s r,
  room_for cs s0 -> cs !! i = Some c ->
  r_command (c_req c) = CLength \/ r_command (c_req c) = CKeys -> r_key_type (c_req c) = None ->
  reaches cs s0 sched ts s -> ts !! i = Some (PRet r) -> (forall out, r <> CErr EKeyTypeDifferent out) ->
  linearized i c sched (start cs s0) r.
Proof. exact c111_length. Qed.
Print Assumptions C111_length_partial.

(** and [append] without a type takes effect in a single moment on a key that keeps its type. *)
Theorem C111_append_partial :
  forall cs s0 i c k t sched ts s r,
  room_for cs s0 -> cs !! i = Some c ->
  r_command (c_req c) = CAppend -> r_key_type (c_req c) = None -> arg (c_req c) 0 = Some k ->
  (forall n x, pool_run (take n sched) (start cs s0) = Some x -> there (Some t) k x.2) ->
  reaches cs s0 sched ts s -> ts !! i = Some (PRet r) ->
  linearized i c sched (start cs s0) r.
Proof. exact c111_append. Qed.
Print Assumptions C111_append_partial.

(** Each number of [stats] is the one of some moment of the call. *)
Theorem C111_stats_partial :
  forall cs s0 i c l0 sched ts s r,
  (forall m, count s0 m + lenN cs < 2 ^ 63)%N -> env_ok (c_env c) ->
  cs !! i = Some c -> asks (c_req c) CStats None l0 ->
  reaches cs s0 sched ts s -> ts !! i = Some (PRet r) ->
  exists d : gmap bytes bytes, responds (c_env c) (c_res c) (VMap d) r /\
    forall m, m = MCommandsErrored \/ m = MCommandsSuccessful \/ m = MSessionsStarted ->
    exists s1, moment i sched (start cs s0) s1 /\
      (count s1 m <> 0%N -> d !! metric_name m = Some (i64_enc (Z.of_N (count s1 m)))) /\
      (forall b, d !! metric_name m = Some b -> b = i64_enc (Z.of_N (count s1 m))).
Proof. exact c111_stats. Qed.
Print Assumptions C111_stats_partial.

(** The same calls in other orders: answers for one moment. *)
Example C111_nonvacuous :
  let sched := [0; 2; 2; 2; 2; 2; 0; 0; 1; 1]%nat in
  room_for moved one_a /\ question (c_req both) None [lit "a"; lit "b"] /\
  reaches moved one_a sched (after moved one_a sched).1 (after moved one_a sched).2 /\
  (after moved one_a sched).1 !! 0%nat = Some (PRet (COk (write_bool [] true))) /\
  responds (c_env both) (c_res both) (VBoolean true) (COk (write_bool [] true)).
Proof. cbn zeta. split_and!; [roomy|asked|scheduled|vm_compute; reflexivity|by apply responds_bool]. Qed.

Example C111_false_nonvacuous :
  let sched := [1; 1; 0; 2; 0]%nat in
  reaches moved one_a sched (after moved one_a sched).1 (after moved one_a sched).2 /\
  (after moved one_a sched).1 !! 0%nat = Some (PRet (COk (write_bool [] false))) /\
  ~ responds (c_env both) (c_res both) (VBoolean true) (COk (write_bool [] false)).
Proof. cbn zeta. split_and!; [scheduled|vm_compute; reflexivity|]. intros H%responds_bool. done. Qed.

(** A key that keeps its type, and an append that finds it. *)
Definition appending : list call := [ask CAppend None [lit "a"; lit "z"]; ask CAppend (Some KTBytes) [lit "a"; lit "w"]].

Example C111_append_nonvacuous :
  let sched := [0; 1; 1; 0; 0]%nat in
  room_for appending one_a /\ arg (c_req (ask CAppend None [lit "a"; lit "z"])) 0 = Some (lit "a") /\
  reaches appending one_a sched (after appending one_a sched).1 (after appending one_a sched).2 /\
  how_many_at returned_ok (after appending one_a sched).1 = 2%N /\
  st_keys (after appending one_a sched).2 !! lit "a" = Some (VBytes (lit "xwz")) /\
  forall n x, pool_run (take n sched) (start appending one_a) = Some x -> there (Some KTBytes) (lit "a") x.2.
Proof.
  cbn zeta. split_and!; [roomy|vm_compute; reflexivity|scheduled|vm_compute; reflexivity|vm_compute; reflexivity|].
  assert (K : forall n, (n <= 5)%nat ->
    match pool_run (take n [0; 1; 1; 0; 0]%nat) (start appending one_a) with
    | Some x => exists b, st_keys x.2 !! lit "a" = Some (VBytes b)
    | None => True
    end).
  { intros n Hn. do 6 (destruct n as [|n]; [eexists; vm_compute; reflexivity|]). lia. }
  intros n x Hx.
  assert (E : take n [0; 1; 1; 0; 0]%nat = take (Nat.min n 5) [0; 1; 1; 0; 0]%nat) by (by do 6 (destruct n as [|n]; [done|])).
  specialize (K (Nat.min n 5) ltac:(lia)). rewrite <-E, Hx in K. destruct K as [b Hb].
  exists (VBytes b). split; [done|]. by intros ? [= <-].
Qed.
