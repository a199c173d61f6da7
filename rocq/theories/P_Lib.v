(** Properties of the sessions, the subscriptions, the timer and the metrics library:
    C45 - C50, C61, C62.  The vocabulary is in [LibSpec]. *)
From Coq Require Import String.
From Verif Require Import Bytes BytesFacts Metrics Session PubSub Timer Prog Commands HistorySpec
  LibSpec AddsSpec LibFacts SessionExact AddsFacts PubSubFacts TimerFacts.
From stdpp Require Import gmap list.
From Coq Require Import NArith ZArith.

(** C45, first clause, in full. *)
Theorem C45_get_partial :
  forall h k s,
  is_Some (ps_get (ps_after h) k s) <-> subscribed h k s.
Proof. exact c45_get. Qed.
Print Assumptions C45_get_partial.

(** C45, second clause: what subscribe reports.  It succeeds exactly when no session has ever
    subscribed to the key; missing: success for every session that is not subscribed. *)
Theorem C45_subscribe_partial :
  forall h k s,
  match (ps_subscribe (ps_after h) k s).2 with
  | Some sub => ~ ever_subscribed h k /\
                ps_get (ps_subscribe (ps_after h) k s).1 k s = Some sub
  | None => ever_subscribed h k
  end.
Proof. exact c45_subscribe. Qed.
Print Assumptions C45_subscribe_partial.

(** C45, third clause: what unsubscribe reports.  Missing: [false] for a first subscriber that was
    removed since. *)
Theorem C45_unsubscribe_partial :
  forall h k s,
  (ps_unsubscribe (ps_after h) k s).2 = true <-> subscribed h k s \/ first_and_kept h k s.
Proof. exact c45_unsubscribe. Qed.
Print Assumptions C45_unsubscribe_partial.

(** The second and third clauses are false as stated: *)
Theorem C45_refuted :
  (exists h k s, ~ subscribed h k s /\ (ps_subscribe (ps_after h) k s).2 = None) /\
  (exists h k s, ~ subscribed h k s /\ (ps_unsubscribe (ps_after h) k s).2 = true).
Proof.
  split.
  - exists [PSubscribe (lit "k") 1; PUnsubscribe (lit "k") 1], (lit "k"), 2%N. rewrite <-c45_get.
    split; [|vm_compute; reflexivity]. intros [x Hx]. vm_compute in Hx. discriminate.
  - exists [PSubscribe (lit "k") 1; PRemoveSession 1], (lit "k"), 1%N. rewrite <-c45_get.
    split; [|vm_compute; reflexivity]. intros [x Hx]. vm_compute in Hx. discriminate.
Qed.
Print Assumptions C45_refuted.

Example C45_nonvacuous :
  let h := [PSubscribe (lit "k") 1; PSubscribe (lit "k") 2; PUnsubscribe (lit "k") 1] in
  ps_get (ps_after h) (lit "k") 1 = None /\ ps_get (ps_after h) (lit "k") 2 = Some 1%N /\
  (ps_subscribe (ps_after h) (lit "j") 1).2 = Some 2%N /\
  (ps_unsubscribe (ps_after h) (lit "k") 2).2 = true /\
  (ps_unsubscribe (ps_after h) (lit "k") 3).2 = false.
Proof. vm_compute. repeat split. Qed.

(** C46: exactly which sessions are recorded under a key.  Missing: later subscribers, and that a
    removed session is no longer recorded. *)
Theorem C46_recorded_partial :
  forall h k s,
  s ∈ recorded (ps_after h) k <-> first_and_kept h k s.
Proof. exact c46_recorded. Qed.
Print Assumptions C46_recorded_partial.

(** C46 is false as stated, in both directions: *)
Theorem C46_refuted :
  (exists h k s, s ∈ recorded (ps_after h) k /\ ~ subscribed h k s) /\
  (exists h k s, s ∉ recorded (ps_after h) k /\ subscribed h k s).
Proof.
  split.
  - exists [PSubscribe (lit "k") 1; PRemoveSession 1], (lit "k"), 1%N. rewrite <-c45_get.
    split; [vm_compute; reflexivity|]. intros [x Hx]. vm_compute in Hx. discriminate.
  - exists [PSubscribe (lit "k") 1; PSubscribe (lit "k") 2], (lit "k"), 2%N. rewrite <-c45_get.
    split; [|by exists 1%N]. vm_compute. discriminate.
Qed.
Print Assumptions C46_refuted.

Example C46_nonvacuous :
  first_and_kept [PSubscribe (lit "k") 1; PSubscribe (lit "k") 2] (lit "k") 1.
Proof.
  exists [], [PSubscribe (lit "k") 2]. split_and!; [done| |].
  - intros [s Hs]. by apply elem_of_nil in Hs.
  - intros Hs%elem_of_list_singleton. discriminate.
Qed.

(** C47: any history of commands, session additions and removals with fewer than 2^32 additions
    (and short enough for the statistics not to overflow). *)
Theorem C47_session_ids :
  forall dbg h,
  (lenN h < 2 ^ 63)%N -> (additions h < 2 ^ 32)%N ->
  let '(_, m, rs) := run_events dbg h store_new sessions_new in
  (forall i t, h !! i = Some (EvSessionAdd t) -> exists id, gave rs i id) /\
  (forall i j id, gave rs i id -> gave rs j id -> i = j) /\
  (forall id x, sm_live m !! id = Some x <->
     exists t, x = Session.Session t id /\ added_and_kept h rs t id).
Proof. exact c47. Qed.
Print Assumptions C47_session_ids.

Example C47_nonvacuous :
  let h := [EvSessionAdd (lit "a"); EvSessionAdd (lit "b"); EvSessionRemove 0;
            EvSessionAdd (lit "c")] in
  (lenN h < 2 ^ 63)%N /\ (additions h < 2 ^ 32)%N /\
  (run_events true h store_new sessions_new).2
  = [RSession (Some 0%N); RSession (Some 1%N); RRemoved true;
     RSession (Some 2%N)].
Proof. vm_compute. repeat split. Qed.

(** C47: without a bound on the additions, every addition gives the number of sessions added before it
    modulo 2^32, or panics if that session is live; every removal tells whether the session was live. *)
Theorem C47_every_event :
  forall dbg h i,
  (lenN h < 2 ^ 63)%N ->
  let rs := (run_events dbg h store_new sessions_new).2 in
  let live id := exists t, added_and_kept (take i h) (take i rs) t id in
  let next := (how_many session_result (take i rs) mod 2 ^ 32)%N in
  (forall t, h !! i = Some (EvSessionAdd t) ->
     (~ live next /\ rs !! i = Some (RSession (Some next))) \/
     (live next /\ rs !! i = Some (RSession None))) /\
  (forall id, h !! i = Some (EvSessionRemove id) ->
     exists b, rs !! i = Some (RRemoved b) /\ (b = true <-> live id)).
Proof. exact c47_every_event. Qed.
Print Assumptions C47_every_event.

Example C47_every_event_nonvacuous :
  let h := [EvSessionAdd (lit "a"); EvSessionRemove 0; EvSessionRemove 0; EvSessionAdd (lit "b")] in
  (lenN h < 2 ^ 63)%N /\
  (run_events true h store_new sessions_new).2
  = [RSession (Some 0%N); RRemoved true; RRemoved false; RSession (Some 1%N)].
Proof. vm_compute. repeat split. Qed.

(** C48: additions that return give distinct ids, each holding the session with its token.
    Missing: that they all return, and that the session knows its own id. *)
Theorem C48_distinct_partial :
  forall dbg tokens sched l g,
  adds_run dbg sched (adds_start tokens) = Some (l, g) ->
  (forall i id, l !! i = Some (ADone id) ->
     exists t id', tokens !! i = Some t /\
       sm_live (as_sessions g) !! id = Some (Session.Session t id')) /\
  (forall i j id, l !! i = Some (ADone id) -> l !! j = Some (ADone id) -> i = j).
Proof. exact c48_distinct. Qed.
Print Assumptions C48_distinct_partial.

(** C48 is false: a schedule where one of two additions panics. *)
Theorem C48_refuted :
  forall dbg t0 t1,
  exists sched l g, adds_run dbg sched (adds_start [t0; t1]) = Some (l, g) /\
    l = [ADone 0; APanicked].
Proof. exact c48_false. Qed.
Print Assumptions C48_refuted.

(** ... and one where a session is stored with an id that is not its own. *)
Theorem C48_refuted_own_id :
  forall dbg t0 t1,
  exists sched l g, adds_run dbg sched (adds_start [t0; t1]) = Some (l, g) /\
    l = [ADone 1; ADone 0] /\
    sm_live (as_sessions g) !! 1%N = Some (Session.Session t0 0).
Proof. exact c48_wrong_id. Qed.
Print Assumptions C48_refuted_own_id.

Example C48_nonvacuous :
  exists l g, adds_run true (repeat 0 7 ++ repeat 1 7)%nat (adds_start [lit "a"; lit "b"])
    = Some (l, g) /\ l = [ADone 0; ADone 1].
Proof. eexists _, _. split; vm_compute; reflexivity. Qed.

(** C48: at any moment the ids in use are those below the number of sessions added; when all
    additions have ended, the next id and the counter of started sessions are that number. *)
Theorem C48_consecutive_partial :
  forall dbg (tokens : list bytes) (sched : list nat) l g,
  (lenN tokens < 2 ^ 32)%N -> adds_run dbg sched (adds_start tokens) = Some (l, g) ->
  (forall id, is_Some (sm_live (as_sessions g) !! id) <-> (id < N.of_nat (number_added l))%N) /\
  (Forall (fun a => add_ended a = true) l ->
   sm_next (as_sessions g) = N.of_nat (number_added l) /\
   default 0%N (as_counters g !! MSessionsStarted) = N.of_nat (number_added l) /\
   as_locked g = ∅).
Proof. exact c48_consecutive. Qed.
Print Assumptions C48_consecutive_partial.

(** C48: however they interleave, the ids returned are 0, 1, ..., n - 1, n is at least one, and
    the manager is left ready for id n.  Missing: that n is the number of additions. *)
Theorem C48_exactly_partial :
  forall dbg (tokens : list bytes) (sched : list nat) l g,
  (lenN tokens < 2 ^ 32)%N -> adds_run dbg sched (adds_start tokens) = Some (l, g) ->
  Forall (fun a => add_ended a = true) l ->
  exists n, ids_returned l ≡ₚ below n /\ sm_next (as_sessions g) = N.of_nat n /\
    default 0%N (as_counters g !! MSessionsStarted) = N.of_nat n /\ as_locked g = ∅ /\
    (tokens <> [] -> 0 < n).
Proof. exact c48_exactly. Qed.
Print Assumptions C48_exactly_partial.

(** C48: no run takes more than seven steps an addition, and none is stuck before all have ended. *)
Theorem C48_always_ends_partial :
  forall dbg (tokens : list bytes) (sched : list nat) l g,
  (lenN tokens < 2 ^ 32)%N -> adds_run dbg sched (adds_start tokens) = Some (l, g) ->
  length sched <= 7 * length tokens /\
  (Forall (fun a => add_ended a = true) l \/ exists i, is_Some (adds_run dbg (sched ++ [i]) (adds_start tokens))).
Proof. exact c48_always_ends. Qed.
Print Assumptions C48_always_ends_partial.

(** C48: an addition panics only if it overlapped another that had added its session without having
    stored the next id. *)
Theorem C48_overlap_partial :
  forall dbg (tokens : list bytes) (sched : list nat) l g i,
  (lenN tokens < 2 ^ 32)%N -> adds_run dbg sched (adds_start tokens) = Some (l, g) ->
  l !! i = Some APanicked -> overlapped dbg tokens sched i.
Proof. exact c48_overlap. Qed.
Print Assumptions C48_overlap_partial.

(** The hypotheses of these four are met, with additions that return and ones that panic. *)
Example C48_runs_nonvacuous :
  exists l g, adds_run true [0; 1; 2; 2; 1; 0; 0; 0; 0; 0; 0; 1; 2; 3; 3; 3; 3; 3; 3; 3]%nat
      (adds_start [lit "a"; lit "b"; lit "c"; lit "d"]) = Some (l, g) /\
    l = [ADone 0; APanicked; APanicked; ADone 1] /\ ids_returned l = below 2 /\
    forallb add_ended l = true /\ sm_next (as_sessions g) = 2%N.
Proof. eexists _, _. split; [vm_compute; reflexivity|]. repeat split. Qed.

(** C49: the duration, and no panic. *)
Theorem C49_duration :
  forall h,
  monotonic h ->
  (forall d, timer_duration (timer_after h) = Ok (Some d) <->
     exists a b, measured h a b /\ Z.of_N d = (in_nanos b - in_nanos a)%Z) /\
  timer_duration (timer_after h) <> Panic.
Proof. exact c49_duration. Qed.
Print Assumptions C49_duration.

(** C49: whether the timer runs. *)
Theorem C49_running :
  forall h,
  timer_is_running (timer_after h) = true <->
  (exists a, started_at h a) /\ ~ exists a b, measured h a b.
Proof. exact c49_running. Qed.
Print Assumptions C49_running.

(** C49: what start reports. *)
Theorem C49_start :
  forall h now,
  (timer_start (timer_after h) now).2 = true <-> ~ exists a, started_at h a.
Proof. exact c49_start. Qed.
Print Assumptions C49_start.

(** C49: what stop reports. *)
Theorem C49_stop :
  forall h now,
  monotonic (h ++ [(TStop, now)]) ->
  match (timer_stop (timer_after h) now).2 with
  | Ok (Some d) => ~ (exists a b, measured h a b) /\
      exists a, started_at h a /\ Z.of_N d = (in_nanos now - in_nanos a)%Z
  | Ok None => (exists a b, measured h a b) \/ ~ exists a, started_at h a
  | Panic => False
  end.
Proof. exact c49_stop. Qed.
Print Assumptions C49_stop.

(** C49: the reading made of any clock value, also of one no clock gives: negative parts count as
    zero; nanoseconds that do not fit 32 bits count as the last nanosecond of the second before. *)
Theorem C49_reading :
  forall t,
  let whole n := (Z.max 0 n * 1000000000)%Z in
  Z.of_N (parse_timespec t) =
  (if tv_nsec t <? 0 then whole (tv_sec t)
   else if tv_nsec t <? 2 ^ 32 then whole (tv_sec t) + tv_nsec t
   else whole (tv_sec t - 1) + 999999999)%Z.
Proof. exact c49_reading. Qed.
Print Assumptions C49_reading.

Example C49_nonvacuous :
  let h := [(TStart, Timespec 1 5); (TStart, Timespec 2 0); (TStop, Timespec 3 1);
            (TStop, Timespec 9 0)] in
  monotonic h /\ measured h (Timespec 1 5) (Timespec 3 1) /\
  timer_duration (timer_after h) = Ok (Some 1999999996%N).
Proof.
  intros h. split_and!; [split| |vm_compute; reflexivity].
  - repeat constructor; vm_compute; discriminate.
  - intros i j a b Hij Ha Hb.
    do 4 (destruct i as [|i]; [injection Ha as <-; do 4 (destruct j as [|j];
      [injection Hb as <-; vm_compute; discriminate || lia|]); discriminate|]).
    discriminate.
  - exists [], [], [(TStart, Timespec 2 0)], [(TStop, Timespec 9 0)].
    split_and!; [reflexivity|by left|..]; repeat constructor; discriminate.
Qed.

(** C50: what a reader sees while the metrics exist. *)
Theorem C50_readers :
  forall (T : Type) `{Countable T} dbg (h : list (metric_op T)) k,
  (lenN h < 2 ^ 64)%N -> MDrop ∉ h ->
  reader_counter (metric_after dbg h) k =
    (if (increments h k =? 0)%N then None else Some (increments h k)) /\
  last_gauge h k (reader_gauge (metric_after dbg h) k) /\
  handle_valid (metric_after dbg h) = true.
Proof. exact @c50_readers. Qed.
Print Assumptions C50_readers.

(** C50: what a write reports. *)
Theorem C50_writers :
  forall (T : Type) `{Countable T} dbg (h : list (metric_op T)) o,
  (lenN h + 1 < 2 ^ 64)%N -> o <> MDrop ->
  (metric_do dbg (metric_after dbg h) o).2 = Some (negb (bool_decide (MDrop ∈ h))).
Proof. exact @c50_writers. Qed.
Print Assumptions C50_writers.

(** C50: what a reader sees once the metrics are dropped. *)
Theorem C50_dropped :
  forall (T : Type) `{Countable T} dbg (h : list (metric_op T)) k,
  MDrop ∈ h ->
  reader_counter (metric_after dbg h) k = None /\ reader_gauge (metric_after dbg h) k = None /\
  handle_valid (metric_after dbg h) = false.
Proof. exact @c50_dropped. Qed.
Print Assumptions C50_dropped.

(** C50: a snapshot keeps the values from when it was taken, while readers go on. *)
Theorem C50_snapshot :
  forall (T : Type) `{Countable T} dbg (h1 h2 : list (metric_op T)) m k,
  (lenN (h1 ++ h2) < 2 ^ 64)%N -> MDrop ∉ h1 -> metric_after dbg h1 = Some m ->
  snapshot_counter (metrics_snapshot m) k =
    (if (increments h1 k =? 0)%N then None else Some (increments h1 k)) /\
  last_gauge h1 k (snapshot_gauge (metrics_snapshot m) k) /\
  (MDrop ∉ h2 ->
   default 0%N (reader_counter (metric_after dbg (h1 ++ h2)) k) =
   (increments h1 k + increments h2 k)%N).
Proof. exact @c50_snapshot. Qed.
Print Assumptions C50_snapshot.

Example C50_nonvacuous :
  let h := [MIncrement 1%N; MGauge 1%N 7%N; MIncrement 2%N; MIncrement 1%N; MGauge 1%N 3%N] in
  (lenN h + 1 < 2 ^ 64)%N /\ MDrop ∉ h /\
  reader_counter (metric_after true h) 1%N = Some 2%N /\
  reader_gauge (metric_after true h) 1%N = Some 3%N /\
  reader_counter (metric_after true (h ++ [MDrop])) 1%N = None.
Proof.
  split_and!; try (vm_compute; reflexivity).
  intros Hd. repeat (apply elem_of_cons in Hd as [Hd|Hd]; [discriminate|]). by apply elem_of_nil in Hd.
Qed.

(** C61: removing a session closes its subscriptions and forgets them. *)
Theorem C61_remove_closes :
  forall h s k sub,
  ps_get (ps_after h) k s = Some sub ->
  let p := (ps_remove_session (ps_after h) s).1 in
  sub ∈ ps_closed p /\ ps_get p k s = None.
Proof. exact c61_closes. Qed.
Print Assumptions C61_remove_closes.

(** C61: it closes nothing else, and the other sessions keep their subscriptions. *)
Theorem C61_exactly :
  forall h s,
  let p := (ps_remove_session (ps_after h) s).1 in
  (forall sub, sub ∈ ps_closed p <->
     sub ∈ ps_closed (ps_after h) \/ exists k, ps_get (ps_after h) k s = Some sub) /\
  (forall k s', s' <> s -> ps_get p k s' = ps_get (ps_after h) k s').
Proof. exact c61_exactly. Qed.
Print Assumptions C61_exactly.

(** C61: a subscription that is still held was never closed. *)
Theorem C61_live_open :
  forall h k s sub,
  ps_get (ps_after h) k s = Some sub -> sub ∉ ps_closed (ps_after h).
Proof. exact c61_open. Qed.
Print Assumptions C61_live_open.

(** C61: no two sessions or keys share a subscription. *)
Theorem C61_own :
  forall h k s k' s' sub,
  ps_get (ps_after h) k s = Some sub -> ps_get (ps_after h) k' s' = Some sub -> k = k' /\ s = s'.
Proof. exact c61_own. Qed.
Print Assumptions C61_own.

Example C61_nonvacuous :
  let h := [PSubscribe (lit "k") 1; PSubscribe (lit "j") 1; PSubscribe (lit "k") 2] in
  ps_get (ps_after h) (lit "j") 1 = Some 1%N /\ ps_get (ps_after h) (lit "k") 2 = Some 2%N /\
  elements (ps_closed (ps_remove_session (ps_after h) 1).1) ≡ₚ [0; 1]%N /\
  ps_get (ps_remove_session (ps_after h) 1).1 (lit "k") 2 = Some 2%N.
Proof. intros h. split_and!; vm_compute; reflexivity || apply Permutation_swap || reflexivity. Qed.

(** C62: what removing a session reports: whether it has subscribed to anything since it was
    last removed.  Missing: [false] when it unsubscribed from everything. *)
Theorem C62_reports_partial :
  forall h s,
  (ps_remove_session (ps_after h) s).2 = true <-> entered h s.
Proof. exact c62_reports. Qed.
Print Assumptions C62_reports_partial.

(** C62 is false as stated: *)
Theorem C62_refuted :
  exists h s, (forall k, ~ subscribed h k s) /\ (ps_remove_session (ps_after h) s).2 = true.
Proof.
  exists [PSubscribe (lit "k") 1; PUnsubscribe (lit "k") 1], 1%N. split; [|vm_compute; reflexivity].
  intros k (h1 & h2 & Hh & Hf). destruct h1 as [|x [|y h1]]; cbn in Hh; [|by simplify_eq|].
  - injection Hh as <- <-. apply Forall_cons in Hf as [Hf _]. apply Hf. by left.
  - apply (f_equal length) in Hh. cbn in Hh. rewrite app_length in Hh. cbn in Hh.
    injection Hh as Hh. revert Hh. clear. destruct (length h1); discriminate.
Qed.
Print Assumptions C62_refuted.

Example C62_nonvacuous :
  entered [PSubscribe (lit "k") 1] 1 /\ ~ entered [PSubscribe (lit "k") 1] 2.
Proof.
  rewrite <-(c62_reports _ 1), <-(c62_reports _ 2). split; vm_compute; [reflexivity|discriminate].
Qed.
