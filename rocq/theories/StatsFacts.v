(** The statistics a client reads: proofs of C66. *)
From Coq Require Import String.
From Verif Require Import Bytes BytesFacts Value CommandId Request RequestFacts Response Metrics Prog Commands EngineSpec
  WireSpec RequestSpec HistorySpec CommandFacts EngineFacts EngineProps HistoryFacts Client ClientSpec ClientFacts ClientProps.
From stdpp Require Import gmap list.
From Coq Require Import NArith ZArith Lia.

Lemma stat_entry_other s m m' acc : m <> m' -> stat_entry s m acc !! metric_name m' = acc !! metric_name m'.
Proof.
  intros Hne. unfold stat_entry. destruct (st_counters s !! m) as [n|]; [|done].
  destruct (Z.of_N n <? i64_half)%Z; [|done]. apply lookup_insert_ne. intros E. apply Hne.
  by destruct m, m'; vm_compute in E.
Qed.

Lemma stat_entry_same s m acc : acc !! metric_name m = None ->
  stats_int (stat_entry s m acc) m = (if (count s m <? 2 ^ 63)%N then Z.of_N (count s m) else 0%Z).
Proof.
  intros Hn. unfold stat_entry, count. destruct (st_counters s !! m) as [n|]; cbn [default id].
  - unfold i64_half. destruct (N.ltb_spec n (2 ^ 63)) as [Hl|Hl].
    + rewrite (proj2 (Z.ltb_lt _ _)) by lia. apply stats_int_spec; [|apply lookup_insert].
      unfold i64_range, i64_half. lia.
    + rewrite (proj2 (Z.ltb_ge _ _)) by lia. unfold stats_int. by rewrite Hn.
  - unfold stats_int. by rewrite Hn.
Qed.

Lemma stats_int_ext d d' m : d !! metric_name m = d' !! metric_name m -> stats_int d m = stats_int d' m.
Proof. unfold stats_int. by intros ->. Qed.

Lemma c66_calls e s : env_ok e -> room s ->
  let reported m := if (count s m <? 2 ^ 63)%N then Z.of_N (count s m) else 0%Z in
  exists s' d, mem_stats e s = (s', ROk d) /\ st_keys s' = st_keys s /\
    stats_commands_successful d = reported MCommandsSuccessful /\
    stats_commands_errored d = reported MCommandsErrored /\
    stats_sessions_started d = reported MSessionsStarted /\
    stats_sessions_ended d = 0%Z.
Proof.
  intros He Hr reported.
  assert (Hq : req_args (into_request (builder_new CStats)) []) by (by apply req_args_nil).
  destruct (dispatch_answered e s (into_request (builder_new CStats)) [] [] He Hq Hr) as [Ha Hks].
  cbn zeta in *. cbn [spec_command] in *.
  destruct (responds_sound e s (builder_new CStats) (VMap (engine_stats s)) (sound_stats s) Ha)
    as (s' & Hs & -> & Ho & _).
  eexists _, (engine_stats s). split_and!.
  - unfold mem_stats, mem_method. by rewrite Hs.
  - apply Hks. intros Hp. by rewrite Hp in Ho.
  - unfold stats_commands_successful, engine_stats.
    rewrite (stats_int_ext _ _ _ (stat_entry_other s MSessionsStarted MCommandsSuccessful _ ltac:(done))).
    apply stat_entry_same. by rewrite stat_entry_other.
  - unfold stats_commands_errored, engine_stats.
    rewrite (stats_int_ext _ _ _ (stat_entry_other s MSessionsStarted MCommandsErrored _ ltac:(done))),
      (stats_int_ext _ _ _ (stat_entry_other s MCommandsSuccessful MCommandsErrored _ ltac:(done))).
    apply stat_entry_same. done.
  - unfold stats_sessions_started, engine_stats. apply stat_entry_same. by rewrite !stat_entry_other.
  - unfold stats_sessions_ended, engine_stats, stats_int. by rewrite !stat_entry_other.
Qed.

Lemma c66_exact d z : i64_range z ->
  (d !! lit "commands_successful"%string = Some (i64_enc z) -> stats_commands_successful d = z) /\
  (d !! lit "commands_errored"%string = Some (i64_enc z) -> stats_commands_errored d = z) /\
  (d !! lit "sessions_started"%string = Some (i64_enc z) -> stats_sessions_started d = z) /\
  (d !! lit "sessions_ended"%string = Some (i64_enc z) -> stats_sessions_ended d = z).
Proof.
  intros Hz. split_and!.
  - apply (stats_int_spec d MCommandsSuccessful z Hz).
  - apply (stats_int_spec d MCommandsErrored z Hz).
  - apply (stats_int_spec d MSessionsStarted z Hz).
  - apply (stats_int_spec d MSessionsEnded z Hz).
Qed.
