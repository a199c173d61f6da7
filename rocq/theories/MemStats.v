(** What tasks that share a memory client read in the statistics: the proof of C119 for tasks. *)
From Coq Require Import String.
From Verif Require Import Locks LockSpec LockScripts LockScriptSpec.
From Verif Require Import Bytes BytesFacts Utf8 Float64 Value CommandId
  Request Response ResponseFacts RespContext Metrics Prog Commands EngineSpec WireSpec RequestSpec
  HistorySpec EngineFacts EngineProps ConcSpec ConcFacts ConcProps Scripts LinSpec LinFacts KeyLinSpec KeyLin KeyLinFacts
  LockScriptFacts Client ClientSpec ClientFacts ClientProps MemTasks MemTaskSpec MemTaskFacts
  SetRaceSpec SetRaceFacts MemRaceFacts StatsRaceSpec StatsRace MemStatsSpec.
From stdpp Require Import gmap list.
From Coq Require Import NArith ZArith Lia ZifyBool ZifyNat ZifyN.

Lemma entry_len d k n v : entry_is d k n -> d !! k = Some v -> lenN v = 8%N.
Proof. intros [_ H] Hv. rewrite (H v Hv). unfold i64_enc. by rewrite be_enc_lenN. Qed.

Lemma show_limits d a b c : stats_show d a b c -> within_limits (RValue (VMap d)).
Proof.
  intros (H1 & H2 & H3 & H4).
  assert (Hl : forall k v, d !! k = Some v -> (lenN k < 32)%N /\ lenN v = 8%N).
  { intros k v Hk. destruct (H4 k) as [->|[->| ->]]; [by eauto|..]; (split; [by vm_compute|]).
    - by eapply (entry_len _ _ _ _ H1). - by eapply (entry_len _ _ _ _ H2). - by eapply (entry_len _ _ _ _ H3). }
  assert (Hs : size d <= 3).
  { rewrite <-size_dom. transitivity (size (list_to_set (map metric_name stats_counters) : gset bytes)); [|by vm_compute; lia].
    apply subseteq_size. intros k Hk%elem_of_dom. apply elem_of_list_to_set, elem_of_list_fmap.
    destruct (H4 k Hk) as [->|[->| ->]].
    - exists MCommandsSuccessful. split; [done|]. by right; left.
    - exists MCommandsErrored. split; [done|]. by left.
    - exists MSessionsStarted. split; [done|]. by right; right; left. }
  split; [|split].
  - change u16_mod with 65536%N. lia.
  - intros k v [H _]%Hl. lia.
  - pose proof (payload_map_bound (map_to_list d)) as Hp. unfold lenN at 2 in Hp. change (length (map_to_list d)) with (size d) in Hp.
    assert (lenN (payload_map (map_to_list d)) <= 2 + 45 * N.of_nat (size d))%N.
    { apply Hp. intros k v Hkv%elem_of_map_to_list. by apply Hl. }
    change u32_mod with 4294967296%N. lia.
Qed.

Lemma entry_int d m n : entry_is d (metric_name m) n -> (n < 2 ^ 63)%N -> stats_int d m = Z.of_N n.
Proof.
  intros [H1 H2] Hn. change (2 ^ 63)%N with 9223372036854775808%N in Hn.
  destruct (d !! metric_name m) as [v|] eqn:E.
  - rewrite (H2 v eq_refl) in E. apply stats_int_spec; [unfold i64_range, i64_half; lia|done].
  - unfold stats_int. rewrite E. destruct (N.eq_dec n 0) as [->|Hne]; [done|]. by specialize (H1 Hne).
Qed.

Lemma finish_stats e d ok err ses : env_ok e -> stats_show d ok err ses ->
  (ok < 2 ^ 63)%N -> (err < 2 ^ 63)%N -> (ses < 2 ^ 63)%N ->
  finish e KStats (COk ([] ++ resp_frame e (RValue (VMap d)))) =
  ROk (RpStats (Z.of_N ok) (Z.of_N err) (Z.of_N ses) 0).
Proof.
  intros He Hd H1 H2 H3. pose proof (show_limits _ _ _ _ Hd) as Hl.
  pose proof (responds_copy e [] (VMap d) He) as Hr. rewrite copy_to_ok in Hr by done. cbn [cres_of] in Hr.
  destruct Hr as [(msg & [= ->] & Hf)|(_ & Hn & _)]; [|done]. unfold finish, received. cbn [app].
  rewrite (Hf Hl (debug e)) by done. cbn [rbind opened as_map or_panic snd].
  destruct Hd as (D1 & D2 & D3 & D4). f_equal. f_equal.
  - by apply entry_int. - by apply entry_int. - by apply entry_int.
  - unfold stats_sessions_ended, stats_int. destruct (d !! metric_name MSessionsEnded) as [v|] eqn:E; [|done].
    exfalso. assert (Hs : is_Some (d !! metric_name MSessionsEnded)) by by eexists.
    destruct (D4 _ Hs) as [E'|[E'|E']]; revert E'; by vm_compute.
Qed.

Lemma finish_well e c q v : finish e c q = ROk v -> exists b, q = COk b.
Proof. destruct q; cbn; try done. eauto. Qed.

Lemma finish_badly e c q err : finish e c q = RErr (CERunningCommand err) -> exists b, q = CErr err b.
Proof.
  unfold finish, received. destruct q as [b|err' b|]; cbn; [|intros [= ->]; eauto|done].
  destruct (resp_feed _ _ _).2 as [[]| | | |]; cbn; try done.
  destruct c; cbn; unfold of_kind, or_panic, a_key_type; repeat (case_match; cbn); done.
Qed.

(** Where the dispatch of a call is. *)
Definition spot (tasks : list task) (a : nat * nat) : nat * nat :=
  (a.1, length (dispatches (take a.2 (default [] (tasks !! a.1))))).

Lemma spot_place tasks a b : same_place tasks a b -> b = spot tasks a.
Proof. destruct b. intros (E & h & e & c & bl & Ht & _ & _ & Hn). unfold spot. cbn in *. by rewrite Ht, E, Hn. Qed.

Lemma c119_tasks sh tasks s0 sched x :
  tasks_fit tasks s0 -> sendable tasks -> at_work sh tasks s0 sched = Some x ->
  exists ok err : nat * nat -> N,
  (forall a e r, task_call tasks a = Some (e, KStats) -> got tasks x a r ->
     r = ROk (RpStats (Z.of_N (ok a)) (Z.of_N (err a)) (Z.of_N (count s0 MSessionsStarted)) 0) /\
     count_between sh tasks s0 sched (done_well tasks x) (done_badly tasks x) a (count s0 MCommandsSuccessful) (ok a) /\
     count_between sh tasks s0 sched (done_badly tasks x) (done_well tasks x) a (count s0 MCommandsErrored) (err a)) /\
  (forall a b e e' r r', task_call tasks a = Some (e, KStats) -> task_call tasks b = Some (e', KStats) ->
     got tasks x a r -> got tasks x b r' -> earlier sh tasks s0 sched a b ->
     (ok a < ok b)%N /\ (err a <= err b)%N).
Proof.
  intros Hfit Hsend Hx. set (sc := map dispatches tasks).
  assert (Hb : forall m, (count s0 m + lenN (concat sc) < 2 ^ 63)%N).
  { intros m. specialize (Hfit m). pose proof (dispatches_concat tasks). unfold sc, lenN in *. lia. }
  destruct (c119_locked sh sc s0 sched x Hb (envs_ok_tasks _ Hsend) Hx) as (n & H1 & H2).
  assert (Hcase : forall b e c r, task_call tasks b = Some (e, c) -> refused c = None -> got tasks x b r ->
    same_place tasks b (spot tasks b) /\ exists bl q, build e c = ROk bl /\
    call_at sc (spot tasks b) = Some (Call e (into_request bl) []) /\ lreturned x (spot tasks b) q /\ r = finish e c q).
  { intros b e c r Hc Hrf Hg. pose proof (got_cases _ _ _ _ _ _ Hsend Hc Hg) as Hcs. rewrite Hrf in Hcs.
    destruct Hcs as (p & bl & q & Hp & Hbd & Hd & Hq & ->). pose proof (spot_place _ _ _ Hp) as ->.
    split; [done|]. by exists bl, q. }
  assert (Hsent : forall b e c err, task_call tasks b = Some (e, c) -> refused c = Some err ->
    (forall v, ~ got tasks x b (ROk v)) /\ (forall d, ~ got tasks x b (RErr (CERunningCommand d)))).
  { intros b e c err Hc Hrf. split; intros v Hg; pose proof (got_cases _ _ _ _ _ _ Hsend Hc Hg) as Hcs;
      rewrite Hrf in Hcs; [done|]. injection Hcs as <-. by destruct c; cbn in Hrf; repeat (case_match; try done). }
  assert (Hmade : forall b r, got tasks x b r -> exists e c, task_call tasks b = Some (e, c)).
  { intros b r (h & cl & Hh & _ & Hr). unfold task_call. rewrite Hh. cbn.
    destruct (h !! b.2) as [[e c]|] eqn:E; [by eauto|]. exfalso. apply lookup_lt_Some in Hr.
    apply lookup_ge_None in E. assert (length (results h (lc_done cl)) <= length h); [|lia].
    clear. generalize (lc_done cl). induction h as [|[e c] h IH]; intros rs; [done|]. cbn [results].
    destruct (build e c); [destruct rs as [|r rs]; cbn; [lia|]|..]; cbn [length];
      match goal with |- context [results h ?z] => specialize (IH z) end; lia. }
  assert (Hstat : forall a e r, task_call tasks a = Some (e, KStats) -> got tasks x a r ->
    env_ok e /\ same_place tasks a (spot tasks a) /\ exists bl q, call_at sc (spot tasks a) = Some (Call e (into_request bl) []) /\
    asks_stats (Call e (into_request bl) []) /\ lreturned x (spot tasks a) q /\ r = finish e KStats q).
  { intros a e r Hc Hg. destruct (Hcase a e KStats r Hc eq_refl Hg) as (Hp & bl & q & Hbd & Hd & Hq & ->).
    assert (Hm : made_by_one tasks e KStats) by by eexists. destruct (Hsend _ _ Hm) as [He Hl].
    split; [done|]. split; [done|]. exists bl, q. split_and!; try done.
    exists []. exact (build_asks e KStats bl He Hl Hbd). }
  exists (fun a => n MCommandsSuccessful (spot tasks a)), (fun a => n MCommandsErrored (spot tasks a)).
  split.
  - intros a e r Hc Hg. destruct (Hstat a e r Hc Hg) as (He & Hp & bl & q & Hd & Has & Hq & ->).
    destruct (H1 _ _ _ Hd Has Hq) as ((d & -> & Hshow) & Hcount). cbn [c_env c_res] in *.
    assert (Hlt : forall m, m = MCommandsSuccessful \/ m = MCommandsErrored -> (n m (spot tasks a) < 2 ^ 63)%N).
    { intros m Hm. destruct (Hcount m Hm) as [_ Hu]. specialize (Hu (all_calls sc)). specialize (Hb m).
      unfold lenN in Hu at 1. rewrite all_calls_length in Hu. fold (lenN (concat sc)) in Hu.
      assert (n m (spot tasks a) <= count s0 m + lenN (concat sc))%N; [|lia]. apply Hu.
      intros b [c0 Hc0] _ _ _. by eapply all_calls_in. }
    split; [|].
    { apply (finish_stats e d); [done|done|apply Hlt; auto|apply Hlt; auto|]. specialize (Hb MSessionsStarted). lia. }
    assert (Hbet : forall m (yes no : nat * nat -> Prop), m = MCommandsSuccessful \/ m = MCommandsErrored ->
      (forall b, yes b -> exists e c r, task_call tasks b = Some (e, c) /\ refused c = None /\ got tasks x b r /\
         forall q, r = finish e c q -> adds_to m q) ->
      (forall b, no b -> exists e c r, task_call tasks b = Some (e, c) /\ refused c = None /\ got tasks x b r /\
         forall q, r = finish e c q -> ~ adds_to m q) ->
      count_between sh tasks s0 sched yes no a (count s0 m) (n m (spot tasks a))).
    { intros m yes no Hm Hyes Hno. destruct (Hcount m Hm) as [Hlo Hup]. split.
      - intros l Hnd Hl.
        assert (Hsp : forall b, b ∈ l -> same_place tasks b (spot tasks b)).
        { intros b Hin. destruct (Hl b Hin) as [_ Hy]. destruct (Hyes b Hy) as (e' & c' & r' & A1 & A2 & A3 & _).
          by destruct (Hcase _ _ _ _ A1 A2 A3). }
        assert (E : lenN l = lenN (map (spot tasks) l)) by (unfold lenN; by rewrite map_length).
        rewrite E. apply Hlo.
        + clear -Hsp Hnd. induction Hnd as [|b l Hb Hnd IH]; [constructor|]. cbn. apply NoDup_cons. split.
          * intros (b' & Eb & Hb')%elem_of_list_fmap. apply Hb.
            rewrite (same_place_inj tasks b b' (spot tasks b)); [done|apply Hsp; by left|].
            rewrite Eb. apply Hsp. by right.
          * apply IH. intros b' Hb'. apply Hsp. by right.
        + intros p (b & -> & Hin)%elem_of_list_fmap. destruct (Hl b Hin) as [Hear Hy].
          destruct (Hyes b Hy) as (e' & c' & r' & A1 & A2 & A3 & A4).
          destruct (Hcase _ _ _ _ A1 A2 A3) as (Hpb & bl' & q' & _ & _ & Hq' & Er). split; [by eapply earlier_before|].
          exists q'. split; [done|]. by apply A4.
      - intros l Hl. assert (E : lenN l = lenN (map (spot tasks) l)) by (unfold lenN; by rewrite map_length).
        rewrite E. apply Hup. intros p [dd Hdd] Hne Hnb Had.
        destruct (call_at_tasks _ _ _ Hdd) as (b & e' & c' & bl' & Hpb & Hcb & Hbd & ->).
        pose proof (spot_place _ _ _ Hpb) as ->. apply elem_of_list_fmap. exists b. split; [done|].
        assert (Hm' : made_by_one tasks e' c') by by eexists. destruct (Hsend _ _ Hm') as [He' Hl'].
        apply Hl.
        + exists e', c'. split; [done|]. destruct (refused c') as [err|] eqn:Hrf; [|done].
          by rewrite (makes_refused e' c' err He' Hl' Hrf) in Hbd.
        + intros ->. done.
        + intros Hear. apply Hnb. by eapply earlier_before.
        + intros Hn. destruct (Hno b Hn) as (e2 & c2 & r2 & A1 & A2 & A3 & A4).
          destruct (Hcase _ _ _ _ A1 A2 A3) as (_ & bl2 & q2 & _ & _ & Hq2 & Er). apply (A4 q2 Er). by apply Had. }
    assert (Hw : forall b, done_well tasks x b -> exists e c r, task_call tasks b = Some (e, c) /\ refused c = None /\ got tasks x b r /\
         forall q, r = finish e c q -> exists w, q = COk w).
    { intros b [v Hv]. destruct (Hmade _ _ Hv) as (e' & c' & Hcb). exists e', c', (ROk v).
      destruct (refused c') as [err|] eqn:Hrf; [exfalso; by eapply (proj1 (Hsent _ _ _ _ Hcb Hrf))|].
      split_and!; try done. intros q Eq. symmetry in Eq. by apply finish_well in Eq. }
    assert (Hy : forall b, done_badly tasks x b -> exists e c r, task_call tasks b = Some (e, c) /\ refused c = None /\ got tasks x b r /\
         forall q, r = finish e c q -> exists err w, q = CErr err w).
    { intros b [v Hv]. destruct (Hmade _ _ Hv) as (e' & c' & Hcb). exists e', c', (RErr (CERunningCommand v)).
      destruct (refused c') as [err|] eqn:Hrf; [exfalso; by eapply (proj2 (Hsent _ _ _ _ Hcb Hrf))|].
      split_and!; try done. intros q Eq. symmetry in Eq. apply finish_badly in Eq as [w ->]. by eauto. }
    split; apply Hbet; auto.
    + intros b Hd'. destruct (Hw b Hd') as (e' & c' & r' & A1 & A2 & A3 & A4). exists e', c', r'. split_and!; try done.
      intros q Eq. by destruct (A4 q Eq) as [w ->].
    + intros b Hd'. destruct (Hy b Hd') as (e' & c' & r' & A1 & A2 & A3 & A4). exists e', c', r'. split_and!; try done.
      intros q Eq. destruct (A4 q Eq) as (er & w & ->). by intros [].
    + intros b Hd'. destruct (Hy b Hd') as (e' & c' & r' & A1 & A2 & A3 & A4). exists e', c', r'. split_and!; try done.
      intros q Eq. by destruct (A4 q Eq) as (er & w & ->).
    + intros b Hd'. destruct (Hw b Hd') as (e' & c' & r' & A1 & A2 & A3 & A4). exists e', c', r'. split_and!; try done.
      intros q Eq. destruct (A4 q Eq) as [w ->]. by intros [].
  - intros a b e e' r r' Hc Hc' Hg Hg' Hear.
    destruct (Hstat a e r Hc Hg) as (_ & Hp & bl & q & Hd & Has & Hq & _).
    destruct (Hstat b e' r' Hc' Hg') as (_ & Hp' & bl' & q' & Hd' & Has' & Hq' & _).
    eapply H2; [exact Hd|done|done|exact Hd'|done|done|]. by eapply earlier_before.
Qed.
