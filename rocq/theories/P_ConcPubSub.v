(** Properties of concurrent use of the subscriptions: C76, C77.
    The threads and their locks are [ConcPubSub], the vocabulary is in [ConcPubSubSpec] and, for the
    sequential use, in [LibSpec]. *)
From Coq Require Import String.
From Verif Require Import Bytes BytesFacts PubSub LibSpec ConcPubSub ConcPubSubSpec ConcPubSubFacts ConcPubSubExact.
From stdpp Require Import gmap list.
From Coq Require Import NArith.

(** Everything in one shard. *)
Definition one_shard : sharding := Sharding (fun _ => 0%N) (fun _ => 0%N).
(** Sessions spread by their number. *)
Definition spread : sharding := Sharding (fun s => s) (fun k => lenN k).

(** C76: threads never wait for each other for good.  Whatever the schedule so far, a thread can move
    unless all have returned; it can be continued until all have; and no schedule goes on for ever. *)
Theorem C76_no_deadlock :
  forall (sh : sharding) (calls : list ps_call) (sched : list nat) (x : ps_pool),
  ps_run sh sched (ps_begin calls) = Some x ->
  (length sched <= length calls * (length calls + 4))%nat /\
  (Forall returned x.1 \/ exists i y, ps_step sh i x = Some y) /\
  exists more y, ps_run sh more x = Some y /\ Forall returned y.1.
Proof. exact c76. Qed.
Print Assumptions C76_no_deadlock.

(** Threads do wait: the second cannot move while the first has the session. *)
Definition three : list ps_call :=
  [CallSubscribe (lit "k") 1; CallUnsubscribe (lit "k") 1; CallRemove 1].
Definition blocked (x : option ps_pool) : bool := match x with Some _ => false | None => true end.
Example C76_nonvacuous :
  match ps_run one_shard [0; 1; 1] (ps_begin three) with
  | Some x => blocked (ps_step one_shard 2 x) = true /\ blocked (ps_step one_shard 0 x) = false /\
              match ps_run one_shard [0; 0; 1; 1; 2; 2; 2] x with
              | Some y => y.1 = [TReturned (RSubscribe (Some 0%N)); TReturned (RUnsubscribe true);
                                 TReturned (RRemove true)]
              | None => False
              end
  | None => False
  end.
Proof. vm_compute. repeat split. Qed.

(** C77 is false.  A session subscribes while it unsubscribes, and unsubscribes once more: both
    times it is told that it was subscribed, which no order of the three calls explains. *)
Definition races : list ps_call :=
  [CallUnsubscribe (lit "k") 1; CallSubscribe (lit "k") 1; CallUnsubscribe (lit "k") 1].
Theorem C77_refuted : exists sched x,
  ps_run one_shard sched (ps_begin races) = Some x /\ Forall returned x.1 /\
  x.1 !! 0 = Some (TReturned (RUnsubscribe true)) /\
  x.1 !! 2 = Some (TReturned (RUnsubscribe true)) /\
  forall l, ~ in_order races l x.1.
Proof.
  assert (Hx : match ps_run one_shard [0; 0; 1; 1; 1; 0; 0; 2; 2; 2; 2] (ps_begin races) with
    | Some x => x.1 = [TReturned (RUnsubscribe true); TReturned (RSubscribe (Some 0%N));
                       TReturned (RUnsubscribe true)]
    | None => False
    end) by (vm_compute; reflexivity).
  destruct (ps_run one_shard _ _) as [x|] eqn:E; [|done]. eexists _, x. split; [exact E|].
  clear E. rewrite Hx. clear Hx x.
  split; [repeat constructor; by eexists|]. split; [reflexivity|]. split; [reflexivity|].
  intros l [Hl Hr]. symmetry in Hl. apply permutations_Permutation in Hl. vm_compute in Hl.
  assert (H : forall p i c, l !! p = Some i -> races !! i = Some c -> i <> 1 ->
    alone (ps_after (ops races (take p l))) c = RUnsubscribe true).
  { intros p i c Hp Hi Hne. specialize (Hr p i c Hp Hi).
    destruct i as [|[|[|i]]]; [|done| |done]; cbn in Hr; by injection Hr as <-. }
  clear Hr. repeat (apply elem_of_cons in Hl as [->|Hl]); [..|by apply elem_of_nil in Hl].
  all: first [specialize (H 0 0 _ eq_refl eq_refl ltac:(lia)); vm_compute in H; discriminate
             |specialize (H 0 2 _ eq_refl eq_refl ltac:(lia)); vm_compute in H; discriminate
             |specialize (H 2 0 _ eq_refl eq_refl ltac:(lia)); vm_compute in H; discriminate
             |specialize (H 2 2 _ eq_refl eq_refl ltac:(lia)); vm_compute in H; discriminate].
Qed.
Print Assumptions C77_refuted.

(** C77: what holds of it, under every schedule and sharding: who is subscribed to what changes as if
    each call took effect in one instant between its begin and its return, and [get] and
    [remove_session] return exactly what they do there.
    Missing: the results of [subscribe] and [unsubscribe], which may report less and more. *)
Theorem C77_partial :
  forall (sh : sharding) (calls : list ps_call) (sched : list nat),
  subscriptions_linearizable sh calls sched.
Proof. exact c77. Qed.
Print Assumptions C77_partial.

(** C77: when all calls have returned, the channels that are closed are those of this order. *)
Theorem C77_closed_partial :
  forall (sh : sharding) (calls : list ps_call) (sched : list nat) (x : ps_pool),
  ps_run sh sched (ps_begin calls) = Some x -> Forall returned x.1 ->
  exists l, l ≡ₚ seq 0 (length calls) /\
    (forall k s, ps_get x.2 k s = ps_get (ps_after (ops calls l)) k s) /\
    ps_closed x.2 = ps_closed (ps_after (ops calls l)).
Proof. exact c77_closed. Qed.
Print Assumptions C77_closed_partial.

(** C77: at any time, a subscription that is held is open. *)
Theorem C77_open :
  forall (sh : sharding) (calls : list ps_call) (sched : list nat) (x : ps_pool) k s sub,
  ps_run sh sched (ps_begin calls) = Some x ->
  ps_get x.2 k s = Some sub -> sub ∉ ps_closed x.2.
Proof. exact c77_open. Qed.
Print Assumptions C77_open.

Example C77_nonvacuous :
  match ps_run spread [0; 2; 0; 0; 1; 1; 2; 2; 1; 1] (ps_begin
    [CallSubscribe (lit "k") 1; CallUnsubscribe (lit "k") 1; CallSubscribe (lit "k") 2]) with
  | Some x => ps_get x.2 (lit "k") 1 = None /\ ps_get x.2 (lit "k") 2 = Some 1%N
  | None => False
  end /\
  match ps_run spread [0; 0; 0; 1; 1; 2; 1; 2; 1] (ps_begin
    [CallSubscribe (lit "k") 1; CallRemove 1; CallGet (lit "k") 1]) with
  | Some x => Forall returned x.1 /\ elements (ps_closed x.2) = [0%N] /\
              x.1 !! 2 = Some (TReturned (RGet None))
  | None => False
  end.
Proof. vm_compute. split_and!; try reflexivity. repeat constructor; by eexists. Qed.

(** C77: when nobody unsubscribes, everything is as it should be: the calls take effect in some order
    that respects who returned before whom, and every call has returned what it returns in that
    order, the names of the subscriptions aside. *)
Theorem C77_results_partial :
  forall (sh : sharding) (calls : list ps_call) (sched : list nat),
  Forall (fun c => ~ unsubscribes c) calls -> results_linearizable sh calls sched.
Proof. exact c77_results. Qed.
Print Assumptions C77_results_partial.

(** Two sessions subscribe to one key.  The first of them is the first to get a subscription, and
    the last to be among the subscribers of the key: in the order it is second. *)
Definition two_subscribe : list ps_call :=
  [CallSubscribe (lit "k") 1; CallSubscribe (lit "k") 2; CallGet (lit "k") 1].
Example C77_results_nonvacuous :
  Forall (fun c => ~ unsubscribes c) two_subscribe /\
  match ps_run spread [0; 1; 1; 1; 0; 0; 2; 2] (ps_begin two_subscribe) with
  | Some x => x.1 = [TReturned (RSubscribe None); TReturned (RSubscribe (Some 1%N));
                     TReturned (RGet (Some 0%N))]
  | None => False
  end /\
  alone (ps_after (ops two_subscribe [])) (CallSubscribe (lit "k") 2) = RSubscribe (Some 0%N) /\
  alone (ps_after (ops two_subscribe [1])) (CallSubscribe (lit "k") 1) = RSubscribe None /\
  alone (ps_after (ops two_subscribe [1; 0])) (CallGet (lit "k") 1) = RGet (Some 1%N) /\
  same_result [1%N; 0%N] (RGet (Some 0%N)) (RGet (Some 1%N)).
Proof.
  split; [repeat constructor; intros (? & ? & [=])|]. vm_compute. repeat split.
Qed.
