(** Lemmas behind C129, from what a call came upon and left (C124) and the changes that others make (C125). *)
From Verif Require Import Locks LockSpec LockFacts LockScripts LockScriptSpec LockScriptFacts.
From Verif Require Import Bytes BytesFacts Utf8 Float64 Value CommandId Request RequestSpec RequestFacts Response RespContext WireSpec
  EngineSpec Metrics Prog ProgFacts Commands CommandFacts HistorySpec EngineFacts EngineProps Concurrent ConcSpec ConcFacts Scripts LinSpec
  LinFacts KeyLinSpec KeyLin KeyLinFacts IsoSpec IsoFacts ScriptInv MomentSpec MomentFacts
  Client ClientSpec ClientFacts ClientProps MemTasks MemTaskSpec MemTaskFacts MemRaceSpec MemRaceFacts MemForwardSpec MemForward
  SeenSpec SeenFacts WroteSpec WroteFacts LedgerSpec LedgerFacts SpareSpec LastingSpec.
From stdpp Require Import gmap list.
From Coq Require Import NArith ZArith Lia.
From Coq Require Import ZifyBool ZifyNat ZifyN.

(** ** What has begun and returned stays so *)

(** A call that is ahead now was ahead before. *)
Lemma ahead_before sh tasks s0 sched n m y z a :
  at_work sh tasks s0 (take n sched) = Some y -> n <= m -> at_work sh tasks s0 (take m sched) = Some z ->
  ahead tasks z a -> ahead tasks y a.
Proof.
  intros Hy Hle Hz (h & cl & Hh & Hcl & Hb). destruct (run_between _ _ _ _ _ _ _ _ Hy Hle Hz) as [l Hl].
  destruct (in_script_run _ _ _ _ _ Hy) as [Hlen _].
  destruct (lookup_lt_is_Some_2 y.1 a.1) as [cl0 Hcl0].
  { rewrite Hlen, map_length. by eapply lookup_lt_Some. }
  destruct (run_grows _ _ _ _ _ _ Hl Hcl0) as (cl' & Hcl' & _ & Hg). assert (cl' = cl) as -> by congruence.
  exists h, cl0. split_and!; [done|done|lia].
Qed.

(** A call that has returned does not run any more. *)
Lemma returned_rests sh tasks s0 sched n m y z a b r :
  same_place tasks a b -> at_work sh tasks s0 (take n sched) = Some y -> got tasks y a r -> n <= m ->
  at_work sh tasks s0 (take m sched) = Some z -> ~ task_running tasks z a.
Proof.
  intros Hs Hy Hg Hle Hz Hr. destruct (run_between _ _ _ _ _ _ _ _ Hy Hle Hz) as [l Hl].
  destruct (got_dispatch _ _ _ _ _ Hs Hg) as (q & cl & Hcl & Hq).
  destruct (run_grows _ _ _ _ _ _ Hl Hcl) as (cl' & Hcl' & Hd & _).
  pose proof (task_place tasks z a b cl' Hs Hr) as Hp. destruct Hs as [E _]. rewrite E in Hp.
  specialize (Hp Hcl'). apply lookup_lt_Some in Hq. lia.
Qed.

(** ** What was noticed in the first steps of a schedule *)

Lemma noticed_longer sh tasks s0 sched a k n m o : n <= length sched ->
  task_noticed sh tasks s0 (take n sched) a k m o -> m <= n /\ task_noticed sh tasks s0 sched a k m o.
Proof.
  intros Hn (Hm & y & Hy & H). rewrite take_length in Hm. rewrite take_take, Nat.min_l in Hy by lia.
  split; [lia|]. split; [lia|]. by exists y.
Qed.

Lemma noticed_shorter sh tasks s0 sched a k n m o : m <= n ->
  task_noticed sh tasks s0 sched a k m o -> task_noticed sh tasks s0 (take n sched) a k m o.
Proof.
  intros Hn (Hm & y & Hy & H). split; [rewrite take_length; lia|]. exists y. by rewrite take_take, Nat.min_l.
Qed.

Lemma replaced_shorter sh tasks s0 sched a k n m m' o o' : m' <= n ->
  task_replaced sh tasks s0 sched a k m m' o o' -> task_replaced sh tasks s0 (take n sched) a k m m' o o'.
Proof.
  intros Hn (H1 & H2 & H3 & H4). split_and!; [done|apply noticed_shorter; [lia|done]|by apply noticed_shorter|].
  intros i z Hi Hi' Hz. rewrite take_take, Nat.min_l in Hz by lia. by apply (H4 i).
Qed.

Lemma change_touches sh tasks s0 sched a e c k n o o' : task_may_change sh tasks s0 sched a e c k n o o' -> task_may_touch c k.
Proof.
  intros Hch. unfold task_may_touch.
  destruct Hch as [[-> _]|[(d & i & -> & _)|[(k0 & i & m & m' & v & -> & _)|[(w & Hw & _)|[(t & i & Ho & _)|(t & v & Ho & _)]]]]]; eauto 8.
Qed.

(** ** What a call left *)

(** If the key held [o'] at a moment while the call ran, and the call itself makes nothing else of it after that. *)
Lemma left_from sh tasks s0 sched a e c k n n' n1 o' :
  sendable tasks -> tasks_fit tasks s0 -> task_call tasks a = Some (e, c) ->
  n1 <= n -> task_noticed sh tasks s0 sched a k n1 o' ->
  (forall j j' p p', n1 <= j -> task_replaced sh tasks s0 sched a k j j' p p' ->
     task_may_change sh tasks s0 sched a e c k j p p' -> p' = o') ->
  undisturbed sh tasks s0 sched a k n' ->
  lasts sh tasks s0 sched k n n' o'.
Proof.
  intros Hsend Hfit Hc Hn1 (Hl1 & y1 & Hy1 & Hr1 & Hu1 & Ho1) Hown Hun m p Hm Hm' Hp.
  assert (Hh1 : task_held sh tasks s0 sched k n1 o') by (split; [done|]; by exists y1).
  pose proof (c125_tasks _ _ _ _ _ n1 m o' p Hsend Hfit ltac:(lia) Hh1 Hp) as HL. clear Hp.
  assert (Hge : forall x p, task_ledger sh tasks s0 sched k n1 o' x p -> n1 <= x).
  { intros x p0 H. induction H as [|x i i' b0 e0 c0 p0 p0' H IH _ Hre _ Hx]; [done|]. destruct Hre. lia. }
  destruct HL as [m Hle|m i i' b0 e0 c0 p0 p0' HL Hc0 Hre Hch Hle]; [done|].
  pose proof (Hge _ _ HL) as Hi. pose proof Hre as (Hlt & _ & (Hi' & z & Hz & Hrz & _) & _).
  destruct (decide (b0 = a)) as [->|Hne].
  - assert (e0 = e /\ c0 = c) as [-> ->] by (split; congruence). by eapply Hown.
  - exfalso. assert (Ha : ahead tasks z a).
    { eapply (Hun i' z b0 e0 c0); [lia|done|done|done|by eapply change_touches|done]. }
    destruct Hr1 as [Hna _]. apply Hna. eapply (ahead_before sh tasks s0 sched n1 i'); [exact Hy1|lia|exact Hz|exact Ha].
Qed.

(** A call that changes nothing more in the first steps, and has returned then, changes nothing more at all. *)
Lemma no_more_longer sh tasks s0 sched a e c k n n1 y r :
  sendable tasks -> task_call tasks a = Some (e, c) -> refused c = None ->
  at_work sh tasks s0 (take n sched) = Some y -> got tasks y a r ->
  (forall m m' p p', task_replaced sh tasks s0 (take n sched) a k m m' p p' -> m' <= n1) ->
  forall m m' p p', task_replaced sh tasks s0 sched a k m m' p p' -> m' <= n1.
Proof.
  intros Hsend Hc Hrf Hy Hg Hno m m' p p' Hre.
  pose proof (got_cases _ _ _ _ _ _ Hsend Hc Hg) as H. rewrite Hrf in H. destruct H as (b & bl & q & Hs & _).
  destruct (decide (m' <= n)) as [Hin|Hin].
  - eapply Hno. by apply (replaced_shorter _ _ _ _ _ _ n) in Hre.
  - exfalso. destruct Hre as (_ & _ & (_ & z & Hz & Hrz & _) & _).
    by apply (returned_rests sh tasks s0 sched n m' y z a b r Hs Hy Hg ltac:(lia) Hz).
Qed.

Lemma c129_left sh tasks s0 sched a e c k n n' y r o o' :
  sendable tasks -> tasks_fit tasks s0 -> task_call tasks a = Some (e, c) -> refused c = None ->
  n <= length sched -> at_work sh tasks s0 (take n sched) = Some y -> got tasks y a r ->
  task_acted sh tasks s0 (take n sched) a k o o' ->
  undisturbed sh tasks s0 sched a k n' ->
  lasts sh tasks s0 sched k n n' o'.
Proof.
  intros Hsend Hfit Hc Hrf Hn Hy Hg (n1 & Hno & Hact) Hun.
  assert (Hn1 : n1 <= n /\ task_noticed sh tasks s0 sched a k n1 o').
  { destruct Hact as [[n0 (_ & _ & H & _)]|[-> H]]; exact (noticed_longer _ _ _ _ _ _ _ _ _ Hn H). }
  destruct Hn1 as [Hn1 Hnot].
  pose proof (no_more_longer sh tasks s0 sched a e c k n n1 y r Hsend Hc Hrf Hy Hg Hno) as Hno'.
  eapply (left_from sh tasks s0 sched a e c k n n' n1); try done.
  intros j j' p p' Hj Hre _. pose proof (Hno' _ _ _ _ Hre). destruct Hre. lia.
Qed.

(** Who reads it. *)
Lemma c129_finds sh tasks s0 sched k n n' y z b e r o :
  sendable tasks -> tasks_fit tasks s0 -> ordinary k ->
  n <= n' -> n' <= length sched -> at_work sh tasks s0 (take n sched) = Some y ->
  at_work sh tasks s0 (take n' sched) = Some z ->
  lasts sh tasks s0 sched k n n' o ->
  task_call tasks b = Some (e, KGet k) -> ahead tasks y b -> got tasks z b r ->
  exists y1 : lsystem, st_keys y1.2 !! k = o /\
  match st_keys y1.2 !! k with
  | Some v => sound v -> r = ROk (RpValue v)
  | None => r = RErr (CERunningCommand EKeyNonexistent)
  end.
Proof.
  intros Hsend Hfit Hord Hle Hn' Hy Hz Hlast Hc Ha Hg.
  destruct (c123_get sh tasks s0 (take n' sched) z b e (KGet k) k KTBytes r Hsend Hfit Hz Hc (or_introl eq_refl) Hord Hg)
    as (y1 & (m & Hm & Hy1 & Hna & _ & Hu) & H).
  rewrite take_length in Hm. rewrite take_take, Nat.min_l in Hy1 by lia.
  assert (Hmn : n <= m).
  { destruct (le_lt_dec n m) as [|Hlt]; [done|]. exfalso. apply Hna.
    eapply (ahead_before sh tasks s0 sched m n); [exact Hy1|lia|exact Hy|exact Ha]. }
  exists y1. split; [|exact H].
  apply (Hlast m); [done|lia|]. split; [lia|]. by exists y1.
Qed.

Lemma c129_read sh tasks s0 sched k n n' y z b e r v :
  sendable tasks -> tasks_fit tasks s0 -> ordinary k -> sound v ->
  n <= n' -> n' <= length sched -> at_work sh tasks s0 (take n sched) = Some y ->
  at_work sh tasks s0 (take n' sched) = Some z ->
  lasts sh tasks s0 sched k n n' (Some v) ->
  task_call tasks b = Some (e, KGet k) -> ahead tasks y b -> got tasks z b r ->
  r = ROk (RpValue v).
Proof.
  intros Hsend Hfit Hord Hsv Hle Hn' Hy Hz Hlast Hc Ha Hg.
  destruct (c129_finds sh tasks s0 sched k n n' y z b e r (Some v)) as (y1 & E & H); try done.
  rewrite E in H. by apply H.
Qed.

(** ** Set, integers and Delete *)

Lemma c129_set sh tasks s0 sched a e c k w n n' y rp :
  sendable tasks -> tasks_fit tasks s0 -> task_call tasks a = Some (e, c) -> sets_to c k w -> ordinary k -> sound w ->
  n <= length sched -> at_work sh tasks s0 (take n sched) = Some y -> got tasks y a (ROk rp) ->
  undisturbed sh tasks s0 sched a k n' ->
  lasts sh tasks s0 sched k n n' (Some w).
Proof.
  intros Hsend Hfit Hc Hset Hord Hsv Hn Hy Hg Hun.
  assert (Hm : made_by_one tasks e c) by by exists a. destruct (Hsend _ _ Hm) as [He Hl].
  pose proof (got_cases _ _ _ _ _ _ Hsend Hc Hg) as H. destruct (refused c) as [err|] eqn:Hrf; [done|]. clear H.
  assert (Hck : changes_key c k) by (left; by exists w).
  destruct (c124_tasks sh tasks s0 (take n sched) y a e c k _ Hsend Hfit Hy Hc Hck Hord Hrf Hg)
    as [(o & o' & Hact & _ & H2)|[[H _]|H]]; [|done|].
  - assert (o' = Some w) as ->.
    { rewrite H2 by done. by apply set_alone, just_room. }
    by eapply c129_left.
  - exfalso. destruct (H _ (just_room k None)) as [_ H1].
    pose proof (set_alone e c k w _ He Hl Hset Hrf Hord Hsv (just_room k None)) as H2. rewrite H1, just_at in H2. done.
Qed.

Lemma c129_set_get sh tasks s0 sched a e c k w n n' y z rp b e' r :
  sendable tasks -> tasks_fit tasks s0 -> task_call tasks a = Some (e, c) -> sets_to c k w -> ordinary k -> sound w ->
  n <= n' -> n' <= length sched ->
  at_work sh tasks s0 (take n sched) = Some y -> at_work sh tasks s0 (take n' sched) = Some z ->
  got tasks y a (ROk rp) -> undisturbed sh tasks s0 sched a k n' ->
  task_call tasks b = Some (e', KGet k) -> ahead tasks y b -> got tasks z b r ->
  r = ROk (RpValue w).
Proof.
  intros Hsend Hfit Hc Hset Hord Hsv Hle Hn' Hy Hz Hg Hun Hb Ha Hr.
  assert (Hn : n <= length sched) by lia.
  pose proof (c129_set _ _ _ _ _ _ _ _ _ _ _ _ _ Hsend Hfit Hc Hset Hord Hsv Hn Hy Hg Hun) as Hlast.
  by apply (c129_read sh tasks s0 sched k n n' y z b e' r w).
Qed.

Lemma c129_add sh tasks s0 sched a e k i n n' y rp :
  sendable tasks -> tasks_fit tasks s0 -> task_call tasks a = Some (e, KIncrementInt k i) -> i64_range (default 1%Z i) ->
  ordinary k -> n <= length sched -> at_work sh tasks s0 (take n sched) = Some y -> got tasks y a (ROk rp) ->
  undisturbed sh tasks s0 sched a k n' ->
  exists z, i64_range z /\ rp = RpValue (VInteger z) /\ lasts sh tasks s0 sched k n n' (Some (VInteger z)).
Proof.
  intros Hsend Hfit Hc Hi Hord Hn Hy Hg Hun.
  assert (Hrf : refused (KIncrementInt k i) = None).
  { destruct Hord as [Hne%nonempty _]. cbn. by rewrite Hne. }
  destruct (c124_add sh tasks s0 (take n sched) y a e k i _ Hsend Hfit Hy Hc Hi Hord Hg) as (o & o' & Hact & H).
  assert (Hz : exists z, i64_range z /\ rp = RpValue (VInteger z) /\ o' = Some (VInteger z)).
  { destruct (default (VInteger 0) o); try (by destruct H as [_ H]). cbn zeta in H. case_decide as Hd.
    - destruct H as [-> [= ->]]. by eexists.
    - destruct (debug e); [done|]. destruct H as [-> [= ->]]. eexists. split; [apply i64_wrap_range|]. done. }
  destruct Hz as (z & Hz & -> & ->). exists z. split_and!; [done|done|]. by eapply c129_left.
Qed.

Lemma c129_add_get sh tasks s0 sched a e k i n n' y z rp b e' r :
  sendable tasks -> tasks_fit tasks s0 -> task_call tasks a = Some (e, KIncrementInt k i) -> i64_range (default 1%Z i) ->
  ordinary k -> n <= n' -> n' <= length sched ->
  at_work sh tasks s0 (take n sched) = Some y -> at_work sh tasks s0 (take n' sched) = Some z ->
  got tasks y a (ROk rp) -> undisturbed sh tasks s0 sched a k n' ->
  task_call tasks b = Some (e', KGet k) -> ahead tasks y b -> got tasks z b r ->
  r = ROk rp.
Proof.
  intros Hsend Hfit Hc Hi Hord Hle Hn' Hy Hz Hg Hun Hb Ha Hr.
  assert (Hn : n <= length sched) by lia.
  destruct (c129_add _ _ _ _ _ _ _ _ _ _ _ _ Hsend Hfit Hc Hi Hord Hn Hy Hg Hun) as (v & Hv & -> & Hlast).
  apply (c129_read sh tasks s0 sched k n n' y z b e' r (VInteger v)); try done.
Qed.

Lemma delete_alone e k s : env_ok e -> (sends (KDelete k) <= 255)%N -> ordinary k -> room s ->
  st_keys (mem_call e s (KDelete k)).1 = delete k (st_keys s).
Proof.
  intros He Hl Hord Hs. assert (Hrf : refused (KDelete k) = None).
  { destruct Hord as [Hne%nonempty _]. cbn. by rewrite Hne. }
  destruct (makes_built e _ He Hl Hrf) as (bl & Hb & _).
  rewrite (mem_left _ _ _ _ Hb). pose proof (build_asks e _ bl He Hl Hb) as Ha. cbn in Ha.
  destruct (st_keys s !! k) as [v|] eqn:Ev.
  - apply (dispatch_val_happens e s _ [] _ _ _ (delete k (st_keys s)) (VBytes k) He Ha Hs); [done|].
    cbn [spec_command]. unfold is_present. by rewrite Ev.
  - rewrite delete_notin by done.
    apply (dispatch_err e s _ [] _ _ _ He Ha Hs (st_keys s) EPreconditionFailed).
    cbn [spec_command]. unfold is_present. by rewrite Ev.
Qed.

Lemma c129_delete sh tasks s0 sched a e k n n' y rp :
  sendable tasks -> tasks_fit tasks s0 -> task_call tasks a = Some (e, KDelete k) -> ordinary k ->
  n <= length sched -> at_work sh tasks s0 (take n sched) = Some y -> got tasks y a (ROk rp) ->
  undisturbed sh tasks s0 sched a k n' ->
  lasts sh tasks s0 sched k n n' None.
Proof.
  intros Hsend Hfit Hc Hord Hn Hy Hg Hun.
  assert (Hm : made_by_one tasks e (KDelete k)) by by exists a. destruct (Hsend _ _ Hm) as [He Hl].
  assert (Hrf : refused (KDelete k) = None).
  { destruct Hord as [Hne%nonempty _]. cbn. by rewrite Hne. }
  assert (Hck : changes_key (KDelete k) k) by by do 6 right.
  destruct (c124_tasks sh tasks s0 (take n sched) y a e _ k _ Hsend Hfit Hy Hc Hck Hord Hrf Hg)
    as [(o & o' & Hact & _ & H2)|[[H _]|H]]; [|done|].
  - assert (o' = None) as ->.
    { rewrite H2 by done. rewrite delete_alone by (try done; apply just_room). by rewrite lookup_delete. }
    by eapply c129_left.
  - exfalso. destruct (H _ (just_room k (Some (VInteger 0)))) as [_ H1].
    rewrite delete_alone in H1 by (try done; apply just_room).
    pose proof (just_at k (Some (VInteger 0))) as H2. rewrite <-H1, lookup_delete in H2. done.
Qed.

Lemma c129_delete_get sh tasks s0 sched a e k n n' y z rp b e' r :
  sendable tasks -> tasks_fit tasks s0 -> task_call tasks a = Some (e, KDelete k) -> ordinary k ->
  n <= n' -> n' <= length sched ->
  at_work sh tasks s0 (take n sched) = Some y -> at_work sh tasks s0 (take n' sched) = Some z ->
  got tasks y a (ROk rp) -> undisturbed sh tasks s0 sched a k n' ->
  task_call tasks b = Some (e', KGet k) -> ahead tasks y b -> got tasks z b r ->
  r = RErr (CERunningCommand EKeyNonexistent).
Proof.
  intros Hsend Hfit Hc Hord Hle Hn' Hy Hz Hg Hun Hb Ha Hr.
  assert (Hn : n <= length sched) by lia.
  pose proof (c129_delete _ _ _ _ _ _ _ _ _ _ _ Hsend Hfit Hc Hord Hn Hy Hg Hun) as Hlast.
  destruct (c129_finds sh tasks s0 sched k n n' y z b e' r None Hsend Hfit Hord Hle Hn' Hy Hz Hlast Hb Ha Hr) as (y1 & E & H).
  by rewrite E in H.
Qed.

Lemma c129_rename sh tasks s0 sched a e k d n n' y rp :
  sendable tasks -> tasks_fit tasks s0 -> task_call tasks a = Some (e, KRename k d) -> k <> [] -> d <> [] -> k <> d ->
  n <= length sched -> at_work sh tasks s0 (take n sched) = Some y -> got tasks y a (ROk rp) ->
  exists m m' v, task_replaced sh tasks s0 sched a k m m' (Some v) None /\
    (undisturbed sh tasks s0 sched a k n' -> lasts sh tasks s0 sched k n n' None) /\
    (undisturbed sh tasks s0 sched a d n' -> lasts sh tasks s0 sched d n n' (Some v)).
Proof.
  intros Hsend Hfit Hc Hk Hd Hkd Hn Hy Hg.
  assert (Hrf : refused (KRename k d) = None).
  { apply nonempty in Hk, Hd. cbn. by rewrite Hk, Hd. }
  destruct (c124_tasks_rename sh tasks s0 (take n sched) y a e k d _ Hsend Hfit Hy Hc Hk Hd Hg)
    as [[H _]|[[H _]|[_ (m & m1 & m2 & i & i' & v & o & _ & _ & _ & H1 & H2 & Hno)]]]; [done|done|].
  exists m1, m2, v. pose proof H1 as (_ & _ & H3 & _). pose proof H2 as (_ & _ & H4 & _).
  destruct (noticed_longer _ _ _ _ _ _ _ _ _ Hn H3) as [Hm2 H3'].
  destruct (noticed_longer _ _ _ _ _ _ _ _ _ Hn H4) as [Hi' H4'].
  split_and!.
  - destruct H1 as (H5 & H6 & _ & H7). split_and!; [done|by apply (noticed_longer _ _ _ _ _ _ _ _ _ Hn H6)|done|].
    intros j z Hj Hj' Hz. apply (H7 j); [done|done|]. by rewrite take_take, Nat.min_l by lia.
  - intros Hun. eapply (left_from sh tasks s0 sched a e _ k n n' m2); try done.
    intros j j' p p' Hj Hre Hch.
    destruct Hch as [[[=] _]|[(d' & j0 & _ & _ & _ & ->)|[(k0 & j0 & j1 & j2 & w & [= <- ->] & _)|[(w & [[=]|[=]] & _)|[(t & j0 & [] & _)|(t & w & [] & _)]]]]]; done.
  - intros Hun. eapply (left_from sh tasks s0 sched a e _ d n n' i'); try done.
    intros j j' p p' Hj Hre _.
    pose proof (no_more_longer sh tasks s0 sched a e _ d n i' y _ Hsend Hc Hrf Hy Hg (Hno d) _ _ _ _ Hre). destruct Hre. lia.
Qed.

(** ** Whatever a call returned *)

Lemma spec_kept dbg st cmd kt k l ks ks' v : changes_one cmd -> cmd <> CDelete ->
  spec_command dbg st cmd kt (k :: l) ks = (ks', AVal v) -> ks' = <[k := v]> ks.
Proof.
  assert (Hint : forall n, spec_add_int dbg ks k n = (ks', AVal v) -> ks' = <[k := v]> ks).
  { intros n. unfold spec_add_int. destruct (bad_key dbg k); [done|].
    destruct (default (VInteger 0) (ks !! k)); try done. case_decide; [by intros [= <- <-]|].
    destruct dbg; [done|]. by intros [= <- <-]. }
  assert (Hfl : forall n, spec_add_float dbg ks k n = (ks', AVal v) -> ks' = <[k := v]> ks).
  { intros n. unfold spec_add_float. destruct (bad_key dbg k); [done|].
    destruct (ks !! k) as [[]|]; try done. by intros [= <- <-]. }
  intros [->|[->|[->|[->|[->|[->| ->]]]]]] Hd; try done; cbn [spec_command].
  - destruct kt as [[]|]; first [apply Hint|apply Hfl].
  - destruct kt as [[]|]; first [apply Hint|apply Hfl].
  - destruct l; [done|]. unfold spec_increment_by. destruct (arg_int _); [apply Hint|done].
  - destruct l; [done|]. unfold spec_decrement_by. destruct (arg_int _); [|done].
    case_decide; [apply Hint|]. destruct dbg; [done|apply Hint].
  - unfold spec_append. destruct (type_or ks kt k KTBytes); try done; (destruct (bad_key dbg k); [done|]);
      match goal with |- context [default ?d (ks !! k)] => destruct (default d (ks !! k)) end; try done; by intros [= <- <-].
  - destruct l as [|a l]; [done|]. unfold spec_set. destruct (value_of _ _); [|done].
    destruct (bad_key dbg k); [done|]. by intros [= <- <-].
Qed.

Lemma returns_left e c k s rp : env_ok e -> (sends c <= 255)%N -> changes_key c k -> c <> KDelete k -> refused c = None -> room s ->
  (mem_call e s c).2 = ROk rp ->
  exists v, st_keys (mem_call e s c).1 = <[k := v]> (st_keys s) /\ (sound v -> rp = RpValue v).
Proof.
  intros He Hl Hck Hnd Hrf Hs Hok. destruct (makes_built e c He Hl Hrf) as (bl & Hb & _).
  rewrite (mem_alone _ _ _ _ Hb) in Hok. rewrite (mem_left _ _ _ _ Hb).
  destruct (changes_key_asks e c k bl He Hl Hck Hb) as (cmd & kt & l & Ha & Hch & _ & _).
  assert (Hcd : cmd <> CDelete).
  { intros ->. pose proof (build_asks e c bl He Hl Hb) as Ha'. destruct Ha as (Ha & _).
    destruct Hck as [(w & [->| ->])|[(w & [->| ->])|[(t & [->| ->])|[(w & [->| ->])|[(n & [->| ->])|[(y & [->| ->])| ->]]]]]];
      cbn in Ha'; try done; destruct Ha' as (Ha' & _); congruence. }
  destruct (spec_command (debug e) (engine_stats s) cmd kt (k :: l) (st_keys s)) as [ks' ans] eqn:Hsp.
  destruct ans as [v|m|err|].
  - destruct (dispatch_val e s _ [] _ _ _ He Ha Hs _ _ Hsp) as [H1 H2]. exists v.
    assert (Hnp : (dispatch e s (into_request bl) []).2 <> CPanic) by (intros E; by rewrite E in Hok).
    split; [rewrite (H2 Hnp); by eapply spec_kept|]. intros Hsv. pose proof Hsv as (Hwf & Hlim & _).
    destruct H1 as [(msg & E & Hf)|(_ & Hnn & _)]; [|done]. rewrite E in Hok. unfold finish, received in Hok. cbn [app] in *.
    rewrite (Hf Hlim (debug e) Hwf (sound_decodable _ _ Hsv)) in Hok. cbn in Hok.
    destruct Hck as [(w & [->| ->])|[(w & [->| ->])|[(t & [->| ->])|[(w & [->| ->])|[(n & [->| ->])|[(y & [->| ->])| ->]]]]]];
      try done; cbn in Hok; try (by injection Hok as <-); destruct v; cbn in Hok; try done;
      repeat (unfold of_kind in Hok; cbn in Hok; try case_decide); try done; by injection Hok as <-.
  - exfalso. assert (Hnk : forall ks1 keys, spec_command (debug e) (engine_stats s) cmd kt (k :: l) (st_keys s) <> (ks1, AKeys keys)); [|by eapply Hnk].
    clear - Hch Hcd. intros ks1 keys.
    assert (Hint : forall n, spec_add_int (debug e) (st_keys s) k n <> (ks1, AKeys keys)).
    { intros n. unfold spec_add_int. repeat case_match; done. }
    assert (Hfl : forall n, spec_add_float (debug e) (st_keys s) k n <> (ks1, AKeys keys)).
    { intros n. unfold spec_add_float. repeat case_match; done. }
    destruct Hch as [->|[->|[->|[->|[->|[->| ->]]]]]]; try done; cbn [spec_command].
    + destruct kt as [[]|]; first [apply Hint|apply Hfl].
    + destruct kt as [[]|]; first [apply Hint|apply Hfl].
    + destruct l; [done|]. unfold spec_increment_by. destruct (arg_int _); [apply Hint|done].
    + destruct l; [done|]. unfold spec_decrement_by. destruct (arg_int _); [|done].
      case_decide; [apply Hint|]. destruct (debug e); [done|apply Hint].
    + unfold spec_append. repeat case_match; done.
    + destruct l as [|a l]; [done|]. unfold spec_set. repeat case_match; done.
  - destruct (dispatch_err e s _ [] _ _ _ He Ha Hs _ _ Hsp) as [E _]. by rewrite E in Hok.
  - destruct (dispatch_crash e s _ [] _ _ _ He Ha Hs _ Hsp) as [E _]. by rewrite E in Hok.
Qed.

Lemma c129_returned sh tasks s0 sched a e c k n n' y rp :
  sendable tasks -> tasks_fit tasks s0 -> task_call tasks a = Some (e, c) -> changes_key c k -> c <> KDelete k -> ordinary k ->
  n <= length sched -> at_work sh tasks s0 (take n sched) = Some y -> got tasks y a (ROk rp) ->
  undisturbed sh tasks s0 sched a k n' ->
  exists v, lasts sh tasks s0 sched k n n' (Some v) /\ (sound v -> rp = RpValue v).
Proof.
  intros Hsend Hfit Hc Hck Hnd Hord Hn Hy Hg Hun.
  assert (Hm : made_by_one tasks e c) by by exists a. destruct (Hsend _ _ Hm) as [He Hl].
  pose proof (got_cases _ _ _ _ _ _ Hsend Hc Hg) as H. destruct (refused c) as [err|] eqn:Hrf; [done|]. clear H.
  destruct (c124_tasks sh tasks s0 (take n sched) y a e c k _ Hsend Hfit Hy Hc Hck Hord Hrf Hg)
    as [(o & o' & Hact & H1 & H2)|[[H _]|H]]; [|done|].
  - cbn zeta in H1, H2. symmetry in H1.
    destruct (returns_left e c k _ rp He Hl Hck Hnd Hrf (just_room k o) H1) as (v & Hv & Hrp).
    exists v. split; [|done]. assert (o' = Some v) as -> by (rewrite H2 by done; by rewrite Hv, lookup_insert).
    by eapply c129_left.
  - exfalso. destruct (H _ (just_room k None)) as [H1 H2]. symmetry in H1.
    destruct (returns_left e c k _ rp He Hl Hck Hnd Hrf (just_room k None) H1) as (v & Hv & _).
    rewrite H2 in Hv. pose proof (just_at k None) as H3. by rewrite Hv, lookup_insert in H3.
Qed.

Lemma c129_returned_get sh tasks s0 sched a e c k n n' y z rp b e' r :
  sendable tasks -> tasks_fit tasks s0 -> task_call tasks a = Some (e, c) -> changes_key c k -> c <> KDelete k -> ordinary k ->
  n <= n' -> n' <= length sched ->
  at_work sh tasks s0 (take n sched) = Some y -> at_work sh tasks s0 (take n' sched) = Some z ->
  got tasks y a (ROk rp) -> undisturbed sh tasks s0 sched a k n' ->
  task_call tasks b = Some (e', KGet k) -> ahead tasks y b -> got tasks z b r ->
  exists v, lasts sh tasks s0 sched k n n' (Some v) /\ (sound v -> rp = RpValue v /\ r = ROk (RpValue v)).
Proof.
  intros Hsend Hfit Hc Hck Hnd Hord Hle Hn' Hy Hz Hg Hun Hb Ha Hr.
  assert (Hn : n <= length sched) by lia.
  destruct (c129_returned _ _ _ _ _ _ _ _ _ _ _ _ Hsend Hfit Hc Hck Hnd Hord Hn Hy Hg Hun) as (v & Hlast & Hrp).
  exists v. split; [done|]. intros Hsv. split; [by apply Hrp|].
  by apply (c129_read sh tasks s0 sched k n n' y z b e' r v).
Qed.
