(** The metrics library, lib/metrics/src/lib.rs, and the engine's metrics,
    engine/src/metrics.rs *)
From Verif Require Import Bytes.
From stdpp Require Import gmap.
From Coq Require Import NArith.
From Coq.Strings Require Import String.
Open Scope string_scope.

(** [Snapshot<T>] behind the [Arc] of [Metrics<T>],
    lib/metrics/src/lib.rs:50-55, 92 *)
Record metrics (T : Type) `{Countable T} := Metrics {
  m_counters : gmap T N;
  m_gauges : gmap T N
}.
Arguments Metrics {T _ _} _ _.
Arguments m_counters {T _ _} _.
Arguments m_gauges {T _ _} _.

Section metrics.
  Context {T : Type} `{Countable T}.

  (** [Metrics::new], lib/metrics/src/lib.rs:99-101, 156-163 *)
  Definition metrics_new : metrics T := Metrics ∅ ∅.

  (** [Snapshot::counter], lib/metrics/src/lib.rs:68-70 *)
  Definition snapshot_counter (s : metrics T) (c : T) : option N :=
    m_counters s !! c.

  (** [Snapshot::gauge], lib/metrics/src/lib.rs:85-87 *)
  Definition snapshot_gauge (s : metrics T) (g : T) : option N :=
    m_gauges s !! g.

  (** [Metrics::snapshot] clones both maps, lib/metrics/src/lib.rs:148-153 *)
  Definition metrics_snapshot (m : metrics T) : metrics T :=
    Metrics (m_counters m) (m_gauges m).

  (** The instance as readers and writers see it through their [Weak] pointer:
      [None] once the [Metrics] value is dropped; lib/metrics/src/lib.rs:169-171. *)
  Definition instance : Type := option (metrics T).

  (** [Reader::counter], lib/metrics/src/lib.rs:181-185 *)
  Definition reader_counter (i : instance) (c : T) : option N :=
    match i with Some m => m_counters m !! c | None => None end.

  (** [Reader::gauge], lib/metrics/src/lib.rs:197-201 *)
  Definition reader_gauge (i : instance) (g : T) : option N :=
    match i with Some m => m_gauges m !! g | None => None end.

  (** [Reader::valid] / [Writer::valid], lib/metrics/src/lib.rs:205-207, 254-256 *)
  Definition handle_valid (i : instance) : bool :=
    match i with Some _ => true | None => false end.

  (** [Writer::gauge], lib/metrics/src/lib.rs:227-234 *)
  Definition writer_gauge (i : instance) (g : T) (n : N) : instance * bool :=
    match i with
    | Some m => (Some (Metrics (m_counters m) (<[g := n]> (m_gauges m))), true)
    | None => (None, false)
    end.

  (** [*entry(counter).or_default() += 1] on a [u64],
      lib/metrics/src/lib.rs:247 *)
  Definition counters_increment (dbg : bool) (cs : gmap T N) (c : T)
    : outcome (gmap T N) :=
    obind (uadd u64_mod dbg (default 0%N (cs !! c)) 1) (fun n =>
    Ok (<[c := n]> cs)).

  (** [Writer::increment], lib/metrics/src/lib.rs:243-250 *)
  Definition writer_increment (dbg : bool) (i : instance) (c : T)
    : outcome (instance * bool) :=
    match i with
    | Some m =>
      obind (counters_increment dbg (m_counters m) c) (fun cs =>
      Ok (Some (Metrics cs (m_gauges m)), true))
    | None => Ok (None, false)
    end.
End metrics.

(** engine/src/metrics.rs:7-14 *)
Inductive metric :=
| MCommandsSuccessful | MCommandsErrored | MSessionsStarted | MSessionsEnded.

Global Instance metric_eq_dec : EqDecision metric.
Proof. solve_decision. Defined.

(** [metric as u8], engine/src/metrics.rs:9-14 *)
Definition metric_to_u8 (m : metric) : N :=
  match m with
  | MCommandsSuccessful => 0 | MCommandsErrored => 1
  | MSessionsStarted => 10 | MSessionsEnded => 11
  end%N.

(** [Metric as u8] backwards, engine/src/metrics.rs:9-14 (not in the code; it makes [metric] a key type for finite maps). *)
Definition metric_of_u8 (n : N) : option metric :=
  match n with
  | 0 => Some MCommandsSuccessful | 1 => Some MCommandsErrored
  | 10 => Some MSessionsStarted | 11 => Some MSessionsEnded
  | _ => None
  end%N.

Global Instance metric_countable : Countable metric.
Proof. refine (inj_countable metric_to_u8 metric_of_u8 _). by intros []. Defined.

(** [Metric::name], engine/src/metrics.rs:17-24 *)
Definition metric_name (m : metric) : bytes :=
  lit match m with
  | MCommandsErrored => "commands_errored"
  | MCommandsSuccessful => "commands_successful"
  | MSessionsEnded => "sessions_ended"
  | MSessionsStarted => "sessions_started"
  end.
