(** Proofs about the timer (C49) and the metrics library (C50). *)
From Verif Require Import Bytes BytesFacts Metrics Timer LibSpec.
From stdpp Require Import gmap list.
From Coq Require Import NArith ZArith Lia.
From Coq Require Import ZifyBool ZifyNat ZifyN.

(** ** The timer *)

Definition fold_timer (t : timer) (h : list (timer_op * timespec)) : timer :=
  fold_left (fun t o => (timer_do t o).1) h t.

Definition reset_end (h : list (timer_op * timespec)) : Prop :=
  h = [] \/ exists h' x, h = h' ++ [(TReset, x)].

Lemma fold_timer_app t h1 h2 : fold_timer t (h1 ++ h2) = fold_timer (fold_timer t h1) h2.
Proof. unfold fold_timer. by rewrite fold_left_app. Qed.

Lemma fold_reset_end h : reset_end h -> fold_timer timer_new h = timer_new.
Proof. intros [->|(h' & x & ->)]; [done|]. by rewrite fold_timer_app. Qed.

Lemma fold_idle h : no_op TReset h -> no_op TStart h -> fold_timer timer_new h = timer_new.
Proof.
  unfold no_op, fold_timer. induction h as [|[o x] h IH]; [done|].
  intros [Ha Hb]%Forall_cons [Hc Hd]%Forall_cons. cbn in *.
  destruct o; try done. cbn. by apply IH.
Qed.

Lemma fold_running h a : no_op TReset h -> no_op TStop h ->
  fold_timer (Timer (Some a) None) h = Timer (Some a) None.
Proof.
  unfold no_op, fold_timer. induction h as [|[o x] h IH]; [done|].
  intros [Ha Hb]%Forall_cons [Hc Hd]%Forall_cons. cbn in *.
  destruct o; try done. cbn. by apply IH.
Qed.

Lemma fold_stopped h a b : no_op TReset h ->
  fold_timer (Timer (Some a) (Some b)) h = Timer (Some a) (Some b).
Proof.
  unfold no_op, fold_timer. induction h as [|[o x] h IH]; [done|].
  intros [Ha Hb]%Forall_cons. cbn in *. destruct o; try done; cbn; by apply IH.
Qed.

Lemma fold_started h t a : no_op TReset h -> t_start t = Some a ->
  t_start (fold_timer t h) = Some a.
Proof.
  unfold no_op, fold_timer. revert t. induction h as [|[o x] h IH]; [done|].
  intros t [Ha Hb]%Forall_cons Ht. cbn in *. apply IH; [done|].
  destruct o; try done; cbn.
  - unfold timer_start. by rewrite Ht.
  - unfold timer_stop. rewrite Ht. by destruct (t_stop t).
Qed.

Lemma no_op_nil o : no_op o [].
Proof. constructor. Qed.
Local Hint Resolve no_op_nil : core.

Lemma no_op_snoc o h x : no_op o (h ++ [x]) <-> no_op o h /\ x.1 <> o.
Proof. unfold no_op. by rewrite Forall_app, Forall_singleton. Qed.

(** The state says what happened. *)
Lemma timer_state h :
  match t_start (timer_after h), t_stop (timer_after h) with
  | None, None => exists h0 h1, h = h0 ++ h1 /\ reset_end h0 /\ no_op TReset h1 /\ no_op TStart h1
  | Some x, None => exists h0 h1 a h2, h = h0 ++ h1 ++ (TStart, a) :: h2 /\ reset_end h0 /\
      no_op TReset h1 /\ no_op TStart h1 /\ no_op TReset h2 /\ no_op TStop h2 /\
      x = parse_timespec a
  | Some x, Some y => exists a b, measured h a b /\ x = parse_timespec a /\ y = parse_timespec b
  | None, Some _ => False
  end.
Proof.
  induction h as [|[o x] h IH] using rev_ind.
  { exists [], []. split_and!; auto; try by left. }
  unfold timer_after. rewrite fold_left_app. cbn. fold (timer_after h).
  destruct (timer_after h) as [[s|] [e|]]; cbn in *.
  - destruct o; cbn.
    + destruct IH as (a & b & (h0 & h1 & h2 & h3 & -> & H) & Hs & He).
      exists a, b. split; [|done]. exists h0, h1, h2, (h3 ++ [(TStart, x)]).
      rewrite no_op_snoc. split; [|naive_solver].
      rewrite <-!app_assoc. cbn. by rewrite <-!app_assoc.
    + destruct IH as (a & b & (h0 & h1 & h2 & h3 & -> & H) & Hs & He).
      exists a, b. split; [|done]. exists h0, h1, h2, (h3 ++ [(TStop, x)]).
      rewrite no_op_snoc. split; [|naive_solver].
      rewrite <-!app_assoc. cbn. by rewrite <-!app_assoc.
    + exists (h ++ [(TReset, x)]), []. rewrite app_nil_r. split_and!; auto.
      right. by eexists _, _.
  - destruct o; cbn.
    + destruct IH as (h0 & h1 & a & h2 & -> & H).
      exists h0, h1, a, (h2 ++ [(TStart, x)]). rewrite !no_op_snoc. split; [|naive_solver].
      by rewrite <-!app_assoc.
    + destruct IH as (h0 & h1 & a & h2 & -> & H0 & H1 & H2 & H3 & H4 & ->).
      exists a, x. split; [|done]. exists h0, h1, h2, [].
      split_and!; auto. by rewrite <-!app_assoc.
    + exists (h ++ [(TReset, x)]), []. rewrite app_nil_r. split_and!; auto.
      right. by eexists _, _.
  - done.
  - destruct o; cbn.
    + destruct IH as (h0 & h1 & -> & H0 & H1 & H2).
      exists h0, h1, x, []. split_and!; auto. by rewrite <-!app_assoc.
    + destruct IH as (h0 & h1 & -> & H0 & H1 & H2).
      exists h0, (h1 ++ [(TStop, x)]). rewrite !no_op_snoc. split; [|naive_solver].
      by rewrite <-!app_assoc.
    + exists (h ++ [(TReset, x)]), []. rewrite app_nil_r. split_and!; auto.
      right. by eexists _, _.
Qed.

Lemma started_state h a : started_at h a -> t_start (timer_after h) = Some (parse_timespec a).
Proof.
  intros (h0 & h1 & h2 & -> & H0 & H1 & H2 & H3).
  change (timer_after ?x) with (fold_timer timer_new x).
  rewrite !fold_timer_app, fold_reset_end, fold_idle by done. cbn.
  by apply (fold_started h2 (Timer _ None)).
Qed.

Lemma measured_state h a b :
  measured h a b -> timer_after h = Timer (Some (parse_timespec a)) (Some (parse_timespec b)).
Proof.
  intros (h0 & h1 & h2 & h3 & -> & H0 & H1 & H2 & H3 & H4 & H5).
  change (timer_after ?x) with (fold_timer timer_new x).
  rewrite !fold_timer_app, fold_reset_end, fold_idle by done.
  change ((TStart, a) :: h2 ++ (TStop, b) :: h3) with ([(TStart, a)] ++ h2 ++ [(TStop, b)] ++ h3).
  rewrite !fold_timer_app. cbn. rewrite fold_running by done. cbn. by apply fold_stopped.
Qed.

Lemma parse_ok t : timespec_ok t -> Z.of_N (parse_timespec t) = in_nanos t.
Proof.
  destruct t as [s n]. unfold timespec_ok, parse_timespec, in_nanos, duration_new, nanos. cbn.
  intros [Hs Hn]. destruct (Z.ltb_spec s 0); [lia|].
  rewrite (proj2 (Z.leb_le 0 n)), (proj2 (Z.ltb_lt n 4294967296)) by lia. cbn. lia.
Qed.

Lemma measured_order h a b : monotonic h -> measured h a b ->
  timespec_ok a /\ timespec_ok b /\ (in_nanos a <= in_nanos b)%Z.
Proof.
  intros [Hok Hm] (h0 & h1 & h2 & h3 & -> & _).
  assert (Ha : (h0 ++ h1 ++ (TStart, a) :: h2 ++ (TStop, b) :: h3) !! (length h0 + length h1)%nat
    = Some (TStart, a)).
  { rewrite app_assoc, <-app_length. by apply list_lookup_middle. }
  assert (Hb : (h0 ++ h1 ++ (TStart, a) :: h2 ++ (TStop, b) :: h3) !!
    (length h0 + length h1 + S (length h2))%nat = Some (TStop, b)).
  { change ((TStart, a) :: h2 ++ (TStop, b) :: h3) with (((TStart, a) :: h2) ++ (TStop, b) :: h3).
    rewrite !app_assoc. apply list_lookup_middle. rewrite !app_length. cbn. lia. }
  split_and!.
  - by apply (Forall_lookup_1 _ _ _ _ Hok Ha).
  - by apply (Forall_lookup_1 _ _ _ _ Hok Hb).
  - refine (Hm _ _ _ _ _ Ha Hb). lia.
Qed.

Lemma measured_started h a b : measured h a b -> started_at h a.
Proof.
  intros (h0 & h1 & h2 & h3 & -> & H0 & H1 & H2 & H3 & H4 & H5).
  exists h0, h1, (h2 ++ (TStop, b) :: h3). split_and!; auto.
  unfold no_op in *. rewrite Forall_app, Forall_cons. done.
Qed.

Lemma c49_duration h : monotonic h ->
  (forall d, timer_duration (timer_after h) = Ok (Some d) <->
     exists a b, measured h a b /\ Z.of_N d = (in_nanos b - in_nanos a)%Z) /\
  timer_duration (timer_after h) <> Panic.
Proof.
  intros Hm. pose proof (timer_state h) as Hs.
  assert (HA : forall a b, measured h a b -> exists d, timer_duration (timer_after h) = Ok (Some d) /\
    Z.of_N d = (in_nanos b - in_nanos a)%Z).
  { intros a b Hab. rewrite (measured_state _ _ _ Hab).
    destruct (measured_order _ _ _ Hm Hab) as (Ha%parse_ok & Hb%parse_ok & Hle).
    unfold timer_duration. cbn. rewrite (proj2 (N.leb_le _ _)) by lia.
    eexists. split; [done|]. lia. }
  split.
  - intros d. split.
    + intros Hd. destruct (timer_after h) as [[x|] [y|]]; cbn in *; try done.
      destruct Hs as (a & b & Hab & -> & ->). exists a, b. split; [done|].
      destruct (HA _ _ Hab) as (d' & Hd' & Hz). cbn in Hd'. congruence.
    + intros (a & b & Hab & Hz). destruct (HA _ _ Hab) as (d' & Hd' & Hz'). rewrite Hd'.
      do 2 f_equal. lia.
  - destruct (timer_after h) as [[x|] [y|]] eqn:Ht; cbn in *; try done.
    destruct Hs as (a & b & Hab & -> & ->).
    destruct (HA _ _ Hab) as (d' & Hd' & Hz). cbn in Hd'. congruence.
Qed.

Lemma c49_running h :
  timer_is_running (timer_after h) = true <->
  (exists a, started_at h a) /\ ~ exists a b, measured h a b.
Proof.
  pose proof (timer_state h) as Hs. split.
  - intros Hr. destruct (timer_after h) as [[x|] [y|]] eqn:Ht; cbn in *; try done.
    destruct Hs as (h0 & h1 & a & h2 & Hh & H0 & H1 & H2 & H3 & H4 & _). split.
    + exists a, h0, h1, h2. done.
    + intros (a' & b & Hab%measured_state). congruence.
  - intros [[a Ha%started_state] Hn]. destruct (timer_after h) as [[x|] [y|]] eqn:Ht; cbn in *; try done.
    destruct Hs as (a' & b & Hab & _). destruct Hn. by eexists _, _.
Qed.

Lemma c49_start h now :
  (timer_start (timer_after h) now).2 = true <-> ~ exists a, started_at h a.
Proof.
  pose proof (timer_state h) as Hs. unfold timer_start.
  destruct (t_start (timer_after h)) as [x|] eqn:Ht; cbn.
  - split; [done|]. intros Hn. destruct Hn.
    destruct (t_stop (timer_after h)).
    + destruct Hs as (a & b & Hab & _). exists a. by eapply measured_started.
    + destruct Hs as (h0 & h1 & a & h2 & -> & H0 & H1 & H2 & H3 & H4 & _). by exists a, h0, h1, h2.
  - split; [|done]. intros _ [a Ha%started_state]. congruence.
Qed.

Lemma c49_stop h now : monotonic (h ++ [(TStop, now)]) ->
  match (timer_stop (timer_after h) now).2 with
  | Ok (Some d) => ~ (exists a b, measured h a b) /\
      exists a, started_at h a /\ Z.of_N d = (in_nanos now - in_nanos a)%Z
  | Ok None => (exists a b, measured h a b) \/ ~ exists a, started_at h a
  | Panic => False
  end.
Proof.
  intros Hm. pose proof (timer_state h) as Hs.
  destruct (c49_duration _ Hm) as [Hd Hp].
  unfold timer_after in Hd, Hp. rewrite fold_left_app in Hd, Hp. fold (timer_after h) in Hd, Hp.
  cbn in Hd, Hp. unfold timer_stop in *. destruct (timer_after h) as [[x|] [y|]] eqn:Ht; cbn in *.
  - left. destruct Hs as (a & b & Hab & _). by eexists _, _.
  - assert (Hnm : ~ exists a b, measured h a b).
    { intros (a & b & Hab%measured_state). congruence. }
    destruct (timer_duration (Timer (Some x) (Some (parse_timespec now)))) as [r|] eqn:Hr; [|done].
    unfold timer_duration in Hr. cbn in Hr. destruct (x <=? parse_timespec now)%N; [|done].
    injection Hr as <-. split; [done|].
    destruct (proj1 (Hd _) eq_refl) as (a & b & Hab & Hz).
    pose proof (measured_state _ _ _ Hab) as Hst.
    unfold timer_after in Hst. rewrite fold_left_app in Hst. fold (timer_after h) in Hst.
    rewrite Ht in Hst. cbn in Hst. injection Hst as Hx Hy.
    destruct Hs as (h0 & h1 & a' & h2 & -> & H0 & H1 & H2 & H3 & H4 & ->).
    exists a'. split; [by exists h0, h1, h2|].
    destruct (measured_order _ _ _ Hm Hab) as (Ha%parse_ok & Hb%parse_ok & Hle).
    assert (Hok : timespec_ok a' /\ timespec_ok now).
    { destruct Hm as [Hf _]. rewrite !Forall_app, Forall_cons, Forall_singleton in Hf. naive_solver. }
    destruct Hok as [Ha'%parse_ok Hnow%parse_ok]. lia.
  - done.
  - right. intros [a Ha%started_state]. by rewrite Ht in Ha.
Qed.

(** ** Metrics *)

Section metrics.
  Context {T : Type} `{Countable T}.
  Implicit Types (h : list (metric_op T)) (k : T).

  Lemma metric_after_snoc dbg h o : metric_after dbg (h ++ [o]) = (metric_do dbg (metric_after dbg h) o).1.
  Proof. unfold metric_after. by rewrite fold_left_app. Qed.

  Lemma increments_snoc h o k :
    increments (h ++ [o]) k = (increments h k + if decide (o = MIncrement k) then 1 else 0)%N.
  Proof.
    unfold increments. rewrite filter_app, lenN_app, filter_cons, filter_nil.
    by destruct (decide (o = MIncrement k)).
  Qed.

  Lemma increments_le h k : (increments h k <= lenN h)%N.
  Proof.
    unfold increments, lenN.
    pose proof (filter_length (fun o => o = MIncrement k) h). lia.
  Qed.

  Lemma last_gauge_snoc h o k v :
    last_gauge h k v ->
    last_gauge (h ++ [o]) k
      (match o with MGauge k' n => if decide (k' = k) then Some n else v | _ => v end).
  Proof.
    intros Hl.
    assert (Hskip : (forall n, o <> MGauge k n) -> last_gauge (h ++ [o]) k v).
    { intros Ho. destruct v as [n|]; cbn in *.
      - destruct Hl as (h1 & h2 & -> & Hn). exists h1, (h2 ++ [o]).
        split; [by rewrite <-app_assoc|]. intros n' [?|<-%elem_of_list_singleton]%elem_of_app.
        + by eapply Hn.
        + by eapply Ho.
      - intros n [?|<-%elem_of_list_singleton]%elem_of_app.
        + by eapply Hl.
        + by eapply Ho. }
    destruct o as [k'|k' n|]; try by apply Hskip.
    destruct (decide (k' = k)) as [->|Hne].
    - exists h, []. split; [done|]. intros n'. apply not_elem_of_nil.
    - apply Hskip. congruence.
  Qed.

  Lemma metric_state dbg h : (lenN h < u64_mod)%N -> MDrop ∉ h ->
    exists m, metric_after dbg h = Some m /\
      forall k, m_counters m !! k =
          (if (increments h k =? 0)%N then None else Some (increments h k)) /\
        last_gauge h k (m_gauges m !! k).
  Proof.
    induction h as [|o h IH] using rev_ind.
    { intros _ _. exists metrics_new. split; [done|]. intros k. cbn. rewrite !lookup_empty.
      split; [done|]. intros n. apply not_elem_of_nil. }
    rewrite lenN_app. intros Hl Hd. change (lenN [o]) with 1%N in Hl.
    destruct IH as (m & Hm & Hk); [lia|set_solver|].
    rewrite metric_after_snoc, Hm.
    destruct o as [k0|k0 n|]; cbn [metric_do]; [| |set_solver].
    - assert (Hc : counters_increment dbg (m_counters m) k0 =
        Ok (<[k0 := (increments h k0 + 1)%N]> (m_counters m))).
      { unfold counters_increment, uadd. destruct (Hk k0) as [-> _].
        pose proof (increments_le h k0).
        assert (Hi : default 0%N (if (increments h k0 =? 0)%N then None else Some (increments h k0))
          = increments h k0) by (destruct (N.eqb_spec (increments h k0) 0); cbn; lia).
        rewrite Hi. rewrite (proj2 (N.ltb_lt _ _)) by lia. done. }
      cbn. rewrite Hc. cbn. eexists. split; [done|]. intros k. cbn.
      destruct (Hk k) as [Hk1 Hk2]. rewrite increments_snoc. split.
      + destruct (decide (k0 = k)) as [->|Hne].
        * rewrite lookup_insert, decide_True by done.
          destruct (N.eqb_spec (increments h k + 1) 0); [lia|done].
        * rewrite lookup_insert_ne by done. rewrite decide_False by congruence. by rewrite N.add_0_r.
      + by apply (last_gauge_snoc h (MIncrement k0) k _ Hk2).
    - cbn. eexists. split; [done|]. intros k. cbn.
      destruct (Hk k) as [Hk1 Hk2]. rewrite increments_snoc, decide_False, N.add_0_r by done.
      split; [done|]. pose proof (last_gauge_snoc h (MGauge k0 n) k _ Hk2) as Hg. cbn in Hg.
      destruct (decide (k0 = k)) as [->|Hne].
      + by rewrite lookup_insert.
      + by rewrite lookup_insert_ne.
  Qed.

  Lemma metric_dropped dbg h : MDrop ∈ h -> metric_after dbg h = None.
  Proof.
    induction h as [|o h IH] using rev_ind; [by intros ?%elem_of_nil|].
    rewrite metric_after_snoc. intros [Hd%IH|<-%elem_of_list_singleton]%elem_of_app; [|done].
    rewrite Hd. by destruct o.
  Qed.
End metrics.

Lemma c50_readers {T} `{Countable T} dbg (h : list (metric_op T)) k :
  (lenN h < 2 ^ 64)%N -> MDrop ∉ h ->
  reader_counter (metric_after dbg h) k =
    (if (increments h k =? 0)%N then None else Some (increments h k)) /\
  last_gauge h k (reader_gauge (metric_after dbg h) k) /\
  handle_valid (metric_after dbg h) = true.
Proof.
  intros Hl Hd. destruct (metric_state dbg h Hl Hd) as (m & -> & Hk). cbn.
  destruct (Hk k). done.
Qed.

Lemma c50_writers {T} `{Countable T} dbg (h : list (metric_op T)) o :
  (lenN h + 1 < 2 ^ 64)%N -> o <> MDrop ->
  (metric_do dbg (metric_after dbg h) o).2 = Some (negb (bool_decide (MDrop ∈ h))).
Proof.
  intros Hl Ho. case_bool_decide as Hd.
  - rewrite metric_dropped by done. by destruct o.
  - destruct (metric_state dbg h) as (m & Hm & Hk); [unfold u64_mod; lia|done|].
    rewrite Hm. destruct o as [k0|k0 n|]; [|done|done]. cbn.
    unfold counters_increment, uadd. destruct (Hk k0) as [-> _].
    pose proof (increments_le h k0).
    assert (Hi : default 0%N (if (increments h k0 =? 0)%N then None else Some (increments h k0))
      = increments h k0) by (destruct (N.eqb_spec (increments h k0) 0); cbn; lia).
    rewrite Hi. rewrite (proj2 (N.ltb_lt _ _)) by (unfold u64_mod; lia). done.
Qed.

Lemma c50_dropped {T} `{Countable T} dbg (h : list (metric_op T)) k :
  MDrop ∈ h ->
  reader_counter (metric_after dbg h) k = None /\ reader_gauge (metric_after dbg h) k = None /\
  handle_valid (metric_after dbg h) = false.
Proof. intros Hd. by rewrite metric_dropped. Qed.

Lemma c50_snapshot {T} `{Countable T} dbg (h1 h2 : list (metric_op T)) m k :
  (lenN (h1 ++ h2) < 2 ^ 64)%N -> MDrop ∉ h1 -> metric_after dbg h1 = Some m ->
  snapshot_counter (metrics_snapshot m) k =
    (if (increments h1 k =? 0)%N then None else Some (increments h1 k)) /\
  last_gauge h1 k (snapshot_gauge (metrics_snapshot m) k) /\
  (MDrop ∉ h2 ->
   default 0%N (reader_counter (metric_after dbg (h1 ++ h2)) k) =
   (increments h1 k + increments h2 k)%N).
Proof.
  rewrite lenN_app. intros Hl Hd Hm.
  destruct (metric_state dbg h1) as (m' & Hm' & Hk); [unfold u64_mod; lia|done|].
  assert (m' = m) as -> by congruence. destruct (Hk k) as [Hk1 Hk2]. split_and!; [done|done|].
  intros Hd2. destruct (metric_state dbg (h1 ++ h2)) as (m2 & -> & Hk').
  { rewrite lenN_app. unfold u64_mod. lia. }
  { set_solver. }
  cbn. destruct (Hk' k) as [-> _].
  assert (Hi : increments (h1 ++ h2) k = (increments h1 k + increments h2 k)%N).
  { unfold increments. by rewrite filter_app, lenN_app. }
  rewrite Hi. destruct (N.eqb_spec (increments h1 k + increments h2 k) 0); cbn; lia.
Qed.

Lemma c49_reading t :
  let whole n := (Z.max 0 n * 1000000000)%Z in
  Z.of_N (parse_timespec t) =
  (if tv_nsec t <? 0 then whole (tv_sec t)
   else if tv_nsec t <? 2 ^ 32 then whole (tv_sec t) + tv_nsec t
   else whole (tv_sec t - 1) + 999999999)%Z.
Proof.
  destruct t as [s n]. unfold parse_timespec, duration_new, nanos. cbn [tv_sec tv_nsec].
  change (2 ^ 32)%Z with 4294967296%Z. cbn zeta.
  destruct (s <? 0)%Z eqn:Es, (n <? 0)%Z eqn:En, (n <? 4294967296)%Z eqn:Em, (0 <=? n)%Z eqn:E0; cbn [andb]; lia.
Qed.
