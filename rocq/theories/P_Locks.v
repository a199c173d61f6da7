(** Commands that run at the same time on a store with locks: C84.
    The locks are modelled in [Locks], the vocabulary is in [LockSpec] and [ConcSpec]. *)
From Coq Require Import String.
From Verif Require Import Bytes BytesFacts Value CommandId Request Metrics Prog Commands EngineSpec
  WireSpec RequestSpec HistorySpec EngineProps Concurrent ConcSpec ConcFacts ConcProps ConcExact Locks
  LockSpec LockFacts.
From stdpp Require Import gmap list.
From Coq Require Import NArith ZArith.

(** Everything in one shard. *)
Definition one_shard : shards := Shards (fun _ => 0%N) (fun _ => 0%N).
Definition append_a : call := Call (env_std false) (a_request CAppend (Some KTList) [lit "l"; lit "a"]) [].
Definition append_b : call := Call (env_std false) (a_request CAppend (Some KTList) [lit "l"; lit "b"]) [].
Definition store0 : store := store_of [(lit "l", VList [lit "x"])].

(** C84: whatever the shards, the schedule and the states values go through while they are changed, the
    commands answer what they answer when every access is one instant, in the order of a part of the
    schedule; and the store is the same whenever nobody has a lock. *)
Theorem C84_atomic :
  forall sh cs s0 lsched lts s,
  lock_reaches sh cs s0 lsched lts s ->
  exists sched ts s', reaches cs s0 sched ts s' /\ sublist sched (map fst lsched) /\
    (forall i t r, lts !! i = Some t -> has_returned t r -> ts !! i = Some (PRet r)) /\
    (Forall (no_lock sh) lts -> s = s').
Proof. exact c84_atomic. Qed.
Print Assumptions C84_atomic.

(** C84 when all have returned: so every statement of C51 - C57, C63, C64 about such runs holds with
    locks ... *)
Theorem C84_all_returned :
  forall sh cs s0 lsched lts s rs,
  lock_reaches sh cs s0 lsched lts s -> all_back lts rs ->
  exists sched ts, reaches cs s0 sched ts s /\ all_returned ts rs /\ sublist sched (map fst lsched).
Proof. exact c84_all. Qed.
Print Assumptions C84_all_returned.

(** ... for instance that no increment is lost. *)
Theorem C84_increments :
  forall sh cs s0 k z0 ds lsched lts s rs,
  room_for cs s0 -> st_keys s0 !! k = Some (VInteger z0) -> ordinary k ->
  Forall2 (fun c d => adds_int c k d \/ (~ may_write (c_req c) k /\ d = 0%Z)) cs ds ->
  Forall i64_range ds -> (forall bs, i64_range (z0 + picked ds bs)) ->
  lock_reaches sh cs s0 lsched lts s -> all_back lts rs ->
  st_keys s !! k = Some (VInteger (z0 + foldr Z.add 0%Z ds)) /\
  forall i c d r, cs !! i = Some c -> ds !! i = Some d -> adds_int c k d -> rs !! i = Some r ->
    is_ok r = true.
Proof. exact c84_increments. Qed.
Print Assumptions C84_increments.

(** C84: a thread that has a lock never waits; when nobody has one, nobody has to wait. *)
Theorem C84_no_deadlock :
  forall sh cs s0 lsched lts s i t,
  lock_reaches sh cs s0 lsched lts s -> lts !! i = Some t ->
  (~ no_lock sh t -> forall mid, exists y, lstep sh i mid (lts, s) = Some y) /\
  (Forall (no_lock sh) lts -> (forall r, ~ has_returned t r) ->
   forall mid, exists y, lstep sh i mid (lts, s) = Some y).
Proof. exact c84_no_deadlock. Qed.
Print Assumptions C84_no_deadlock.

(** C84: no schedule goes on for ever. *)
Theorem C84_bounded :
  forall sh cs s0 lsched lts s,
  lock_reaches sh cs s0 lsched lts s ->
  (lenN lsched <= 4 * (lenN cs * (2 * lenN cs + 7) + fold_right (fun c n => arg_count (c_req c) + n) 0 cs)
    + 2 * lenN cs + fold_right (fun x n => lenN x.2 + n) 0 lsched)%N.
Proof. exact c84_bounded. Qed.
Print Assumptions C84_bounded.

(** The first is half way through its update, which the store shows; the second must wait. *)
Example C84_nonvacuous :
  let half := lrun one_shard [(0, []); (0, [VList []; VInteger 7]); (0, []); (0, [])]
                (lock_start [append_a; append_b] store0) in
  match half with
  | Some x => st_keys x.2 !! lit "l" = Some (VInteger 7) /\
              match lstep one_shard 1 [] x with Some _ => false | None => true end = true /\
              match lrun one_shard [(0, []); (0, []); (1, []); (1, [VList [lit "q"]]); (1, []); (1, []); (1, []);
                                    (0, []); (0, []); (0, []); (1, []); (1, []); (1, [])] x with
              | Some y => st_keys y.2 !! lit "l" = Some (VList [lit "x"; lit "a"; lit "b"]) /\
                          match y.1 with
                          | [TIdle (PRet (COk _)); TIdle (PRet (COk _))] => true
                          | _ => false
                          end = true
              | None => False
              end
  | None => False
  end.
Proof. vm_compute. split_and!; reflexivity. Qed.
