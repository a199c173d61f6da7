(** What Stats calls report while other calls are made (C119). *)
From Coq Require Import String.
From Verif Require Import Bytes Value CommandId Request Response Metrics Prog Commands EngineSpec WireSpec RequestSpec
  HistorySpec ConcSpec Scripts LinSpec KeyLinSpec.
From stdpp Require Import gmap list.
From Coq Require Import NArith ZArith.

(** The call asks for the statistics. *)
Definition asks_stats (c : call) : Prop := exists l, asks (c_req c) CStats None l.

(** A call with this outcome is one that the counter counts. *)
Definition adds_to (m : metric) (r : cres) : Prop :=
  match m, r with
  | MCommandsSuccessful, COk _ => True
  | MCommandsErrored, CErr _ _ => True
  | _, _ => False
  end.

(** The map says [n] for the counter of this name; it may leave out a zero. *)
Definition entry_is (d : gmap bytes bytes) (name : bytes) (n : N) : Prop :=
  (n <> 0%N -> d !! name = Some (i64_enc (Z.of_N n))) /\
  (forall b, d !! name = Some b -> b = i64_enc (Z.of_N n)).

(** The map has these three counts and nothing else. *)
Definition stats_show (d : gmap bytes bytes) (ok err sessions : N) : Prop :=
  entry_is d (lit "commands_successful"%string) ok /\
  entry_is d (lit "commands_errored"%string) err /\
  entry_is d (lit "sessions_started"%string) sessions /\
  forall k, is_Some (d !! k) ->
    k = lit "commands_successful"%string \/ k = lit "commands_errored"%string \/
    k = lit "sessions_started"%string.

(** What [n m a], the counts that call [a] found, are: [bef a b] says that [a] returned before [b] began,
    [ret a r] that it returned [r]. *)
Definition stats_fit (scripts : list (list call)) (s0 : store) (bef : nat * nat -> nat * nat -> Prop)
  (ret : nat * nat -> cres -> Prop) (n : metric -> nat * nat -> N) : Prop :=
  (forall a c r, call_at scripts a = Some c -> asks_stats c -> ret a r ->
     (exists d : gmap bytes bytes, r = COk (c_res c ++ resp_frame (c_env c) (RValue (VMap d))) /\
        stats_show d (n MCommandsSuccessful a) (n MCommandsErrored a) (count s0 MSessionsStarted)) /\
     forall m, m = MCommandsSuccessful \/ m = MCommandsErrored ->
       (forall l, NoDup l -> (forall b, b ∈ l -> bef b a /\ exists r, ret b r /\ adds_to m r) ->
          (count s0 m + lenN l <= n m a)%N) /\
       (forall l, (forall b, is_Some (call_at scripts b) -> b <> a -> ~ bef a b ->
                     (forall r, ret b r -> adds_to m r) -> b ∈ l) ->
          (n m a <= count s0 m + lenN l)%N)) /\
  (forall a b c d ra rb, call_at scripts a = Some c -> asks_stats c -> ret a ra ->
     call_at scripts b = Some d -> asks_stats d -> ret b rb -> bef a b ->
     (n MCommandsSuccessful a < n MCommandsSuccessful b)%N /\ (n MCommandsErrored a <= n MCommandsErrored b)%N).

