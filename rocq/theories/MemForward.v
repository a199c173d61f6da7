(** What tasks that share a memory client see of a key that only grows: the proof of C118 for tasks. *)
From Verif Require Import Locks LockSpec LockScripts LockScriptSpec.
From Verif Require Import Bytes BytesFacts Utf8 Float64 Value CommandId
  Request Response RespContext Metrics Prog Commands EngineSpec WireSpec RequestSpec
  HistorySpec EngineProps ConcSpec ConcFacts ConcProps Scripts LinSpec LinFacts KeyLinSpec KeyLin KeyLinFacts
  LockScriptFacts Client ClientSpec ClientFacts ClientProps MemTasks MemTaskSpec MemTaskFacts
  MemAppendSpec MemAppend SetRaceSpec SetRaceFacts MemRaceFacts ForwardSpec ForwardFacts MemForwardSpec.
From stdpp Require Import gmap list.
From Coq Require Import NArith ZArith Lia ZifyBool ZifyNat ZifyN.

(** ** With the locks of the map *)

Lemma c118_counter_locked sh k scripts s0 z0 D lsched x :
  room_for_all scripts s0 -> envs_ok scripts -> ordinary k -> st_keys s0 !! k = Some (VInteger z0) ->
  (forall c, issued scripts c -> (exists d, adds_int c k d) \/ ~ may_write (c_req c) k) ->
  (forall c d, issued scripts c -> adds_int c k d -> (0 <= d <= D)%Z) -> (0 <= D)%Z ->
  i64_range z0 -> i64_range D -> i64_range (z0 + D * Z.of_nat (length (concat scripts))) ->
  lsys_run sh lsched (lbegin scripts s0) = Some x ->
  exists zn, (unlocked sh x k -> st_keys x.2 !! k = Some (VInteger zn)) /\
  (zn <= z0 + D * Z.of_nat (length (concat scripts)))%Z /\
  (forall a c d r, call_at scripts a = Some c -> counter_call c k d -> lreturned x a r ->
     exists z, responds (c_env c) (c_res c) (VInteger z) r /\ (z0 + d <= z <= zn)%Z) /\
  (forall a b c c' d d' r r', call_at scripts a = Some c -> call_at scripts b = Some c' ->
     counter_call c k d -> counter_call c' k d' -> lreturned x a r -> lreturned x b r' ->
     lbefore sh scripts s0 lsched a b ->
     exists z z', responds (c_env c) (c_res c) (VInteger z) r /\
       responds (c_env c') (c_res c') (VInteger z') r' /\ (z0 + d <= z /\ z + d' <= z' <= zn)%Z).
Proof.
  intros Hroom Henv Hk H0 Hall Hd HD Hr0 HrD Hr1 Hr.
  destruct (lock_transfer _ _ _ _ _ Hr) as (sched & y & f & Hy & Hi & _ & _ & _ & Hb).
  destruct (c118_counter k scripts s0 z0 D sched y) as (zn & H1 & Hzn & H2 & H3); try done.
  exists zn. split_and!.
  - intros Hu. by rewrite (sinv_key _ _ _ _ Hi Hu).
  - done.
  - intros a c d r Hc Hcc Hret%(sinv_returned _ _ _ _ _ Hi). by eapply H2.
  - intros a b c c' d d' r r' Hc Hc' Hcc Hcc' Hret%(sinv_returned _ _ _ _ _ Hi) Hret'%(sinv_returned _ _ _ _ _ Hi) Hbf.
    eapply (H3 a b); try done. by apply Hb.
Qed.

Lemma c118_log_locked sh k scripts s0 t v0 lsched x :
  room_for_all scripts s0 -> envs_ok scripts -> ordinary k -> st_keys s0 !! k = Some v0 -> kind v0 = t ->
  is_Some (append_to v0 []) ->
  (forall c, issued scripts c ->
     (exists l, appends c k t l /\ is_Some (append_to v0 l)) \/ ~ may_write (c_req c) k) ->
  lsys_run sh lsched (lbegin scripts s0) = Some x ->
  exists vn, (unlocked sh x k -> st_keys x.2 !! k = Some vn) /\
  (forall a c l r, call_at scripts a = Some c -> log_call c k t l -> lreturned x a r ->
     exists u v, responds (c_env c) (c_res c) v r /\ grown v0 u /\ append_to u l = Some v /\ grown v vn) /\
  (forall a b c c' l l' r r', call_at scripts a = Some c -> call_at scripts b = Some c' ->
     log_call c k t l -> log_call c' k t l' -> lreturned x a r -> lreturned x b r' ->
     lbefore sh scripts s0 lsched a b ->
     exists u v u' w, responds (c_env c) (c_res c) v r /\ responds (c_env c') (c_res c') w r' /\
       grown v0 u /\ append_to u l = Some v /\ grown v u' /\ append_to u' l' = Some w /\ grown w vn).
Proof.
  intros Hroom Henv Hk H0 Hkind Hap Hall Hr.
  destruct (lock_transfer _ _ _ _ _ Hr) as (sched & y & f & Hy & Hi & _ & _ & _ & Hb).
  destruct (c118_log k scripts s0 t v0 sched y) as (vn & H1 & H2 & H3); try done.
  exists vn. split_and!.
  - intros Hu. by rewrite (sinv_key _ _ _ _ Hi Hu).
  - intros a c d r Hc Hcc Hret%(sinv_returned _ _ _ _ _ Hi). by eapply H2.
  - intros a b c c' d d' r r' Hc Hc' Hcc Hcc' Hret%(sinv_returned _ _ _ _ _ Hi) Hret'%(sinv_returned _ _ _ _ _ Hi) Hbf.
    eapply (H3 a b); try done. by apply Hb.
Qed.

(** ** Tasks: a counter *)

Lemma adds_int_fun c k d d' : adds_int c k d -> adds_int c k d' -> d = d'.
Proof.
  intros (cmd & kt & l & (Hc & Hkt & Hl) & Hch) (cmd' & kt' & l' & (Hc' & Hkt' & Hl') & Hch').
  assert (cmd' = cmd) as -> by congruence. assert (kt' = kt) as -> by congruence.
  pose proof (carries_unique _ _ _ Hl Hl') as <-.
  destruct Hch as [(E & _ & _ & ->)|[(E & _ & _ & ->)|(z & x & r & -> & Hz & [[E ->]|[E ->]])]];
    destruct Hch' as [(E' & _ & _ & ->)|[(E' & _ & _ & ->)|(z' & x' & r' & El & Hz' & [[E' ->]|[E' ->]])]];
    try congruence.
  all: match goal with H : _ :: (i64_enc ?a ++ ?b) :: _ = _ :: (i64_enc ?a2 ++ ?b2) :: _ |- _ =>
      assert (E8 : take 8 (i64_enc a ++ b) = take 8 (i64_enc a2 ++ b2)) by exact (f_equal (fun w => take 8 (hd [] (tl w))) H) end;
    rewrite !take_app_alt in E8 by (by rewrite i64_enc_len);
    apply (f_equal i64_dec) in E8; rewrite !i64_dec_enc in E8 by done; by rewrite E8.
Qed.

Lemma nonempty k : k <> [] -> is_empty k = false.
Proof. intros Hk. unfold is_empty. destruct k; [done|]. rewrite lenN_cons. lia. Qed.

Lemma amount_built e c k d b : env_ok e -> i64_range d -> adds_amount c k d -> build e c = ROk b ->
  adds_int (Call e (into_request b) []) k d.
Proof.
  intros He Hd Hc Hb.
  assert (Hs : (sends c <= 255)%N).
  { destruct Hc as [[[->|[->| ->]] _]|[->| ->]]; cbn; lia. }
  pose proof (build_asks e c b He Hs Hb) as Ha.
  assert (E : forall z, i64_enc z = i64_enc z ++ []) by (intros; by rewrite app_nil_r).
  destruct Hc as [[[->|[->| ->]] ->]|[->| ->]]; cbn [request_of] in Ha; eexists _, _, _; (split; [exact Ha|]).
  1,2: left; repeat split; [done|]; by exists [].
  all: right; right; eexists _, [], []; cbn [value_args default]; rewrite <-E; split; [done|];
    split; [done|]; by left.
Qed.

Lemma reads_built e c k t b : env_ok e -> reads_key c k t -> build e c = ROk b ->
  gets (Call e (into_request b) []) k t.
Proof.
  intros He Hc Hb. assert (Hs : (sends c <= 255)%N) by (destruct Hc as [->| ->]; cbn; lia).
  pose proof (build_asks e c b He Hs Hb) as Ha. exists None, []. destruct Hc as [->| ->]; (split; [exact Ha|by left]).
Qed.

Lemma finish_read e c k t v r : reads_key c k t -> sound v -> kind v = t -> responds e [] v r ->
  finish e c r = ROk (RpValue v).
Proof.
  intros Hc Hv Hk Hr. pose proof Hv as (Hwf & Hl & _).
  destruct Hr as [(msg & -> & Hf)|(_ & Hn & _)]; [|done].
  unfold finish, received. cbn [app] in *. rewrite (Hf Hl (debug e) Hwf (sound_decodable _ _ Hv)).
  destruct Hc as [->| ->]; cbn; [done|]. unfold of_kind. by rewrite decide_True.
Qed.

Lemma finish_amount e c k d z r : adds_amount c k d -> i64_range z -> responds e [] (VInteger z) r ->
  finish e c r = ROk (RpValue (VInteger z)).
Proof.
  intros Hc Hz Hr. pose proof (sound_int z Hz) as Hv. pose proof Hv as (Hwf & Hl & _).
  destruct Hr as [(msg & -> & Hf)|(_ & Hn & _)]; [|done].
  unfold finish, received. cbn [app] in *. rewrite (Hf Hl (debug e) Hwf (sound_decodable _ _ Hv)).
  by destruct Hc as [[[->|[->| ->]] _]|[->| ->]].
Qed.

Lemma amount_refused c k d : adds_amount c k d -> k <> [] -> refused c = None.
Proof.
  intros Hc Hk%nonempty. by destruct Hc as [[[->|[->| ->]] _]|[->| ->]]; cbn; rewrite ?Hk.
Qed.

Lemma reads_refused c k t : reads_key c k t -> k <> [] -> refused c = None.
Proof. intros Hc Hk%nonempty. by destruct Hc as [->| ->]; cbn; rewrite ?Hk. Qed.

Lemma amount_changes c k d : adds_amount c k d -> changes c k.
Proof. intros [[[->|[->| ->]] _]|[->| ->]]; cbn; by apply elem_of_list_singleton. Qed.

Lemma c118_tasks_counter sh tasks k s0 z0 D sched x :
  tasks_fit tasks s0 -> sendable tasks -> ordinary k -> k <> [] -> st_keys s0 !! k = Some (VInteger z0) ->
  (forall e c, made_by_one tasks e c -> (exists d, adds_amount c k d) \/ ~ changes c k) ->
  (forall e c d, made_by_one tasks e c -> adds_amount c k d -> (0 <= d <= D)%Z) -> (0 <= D)%Z ->
  i64_range z0 -> i64_range D -> i64_range (z0 + D * Z.of_nat (length (concat tasks))) ->
  at_work sh tasks s0 sched = Some x ->
  exists zn, (unlocked sh x k -> st_keys x.2 !! k = Some (VInteger zn)) /\
  (forall a e c d r, task_call tasks a = Some (e, c) -> counter_use c k d -> got tasks x a r ->
     exists z, r = ROk (RpValue (VInteger z)) /\ (z0 + d <= z <= zn)%Z) /\
  (forall a b e e' c c' d d' r r', task_call tasks a = Some (e, c) -> task_call tasks b = Some (e', c') ->
     counter_use c k d -> counter_use c' k d' -> got tasks x a r -> got tasks x b r' ->
     earlier sh tasks s0 sched a b ->
     exists z z', r = ROk (RpValue (VInteger z)) /\ r' = ROk (RpValue (VInteger z')) /\
       (z0 + d <= z /\ z + d' <= z' <= zn)%Z).
Proof.
  intros Hfit Hsend Hk Hne H0 Hcalls Hamt HD Hr0 HrD Hr1 Hx.
  pose proof (dispatches_concat tasks) as Hlen.
  assert (Hmul : (D * Z.of_nat (length (concat (map dispatches tasks))) <= D * Z.of_nat (length (concat tasks)))%Z).
  { apply Z.mul_le_mono_nonneg_l; lia. }
  assert (Hpos : (0 <= D * Z.of_nat (length (concat (map dispatches tasks))))%Z) by (apply Z.mul_nonneg_nonneg; lia).
  assert (Hd64 : forall e c d, made_by_one tasks e c -> adds_amount c k d -> i64_range d).
  { intros e c d Hm Ha. specialize (Hamt e c d Hm Ha). unfold i64_range in *; lia. }
  assert (Hadd : forall p dd, call_at (map dispatches tasks) p = Some dd ->
    (exists d, adds_int dd k d /\ (0 <= d <= D)%Z) \/ ~ may_write (c_req dd) k).
  { intros p dd Hd. destruct (call_at_tasks _ _ _ Hd) as (a & e & c & bl & _ & Hc & Hb & ->).
    assert (Hm : made_by_one tasks e c) by by eexists. destruct (Hsend _ _ Hm) as [He Hl].
    destruct (Hcalls _ _ Hm) as [[d Ha]|Hno].
    - left. exists d. split; [|by eapply Hamt]. eapply amount_built; [done|by eapply Hd64|done|done].
    - right. intros Hw. apply Hno. by eapply may_write_changes. }
  destruct (c118_counter_locked sh k (map dispatches tasks) s0 z0 D sched x) as (zn & H1 & Hzn & H2 & H3); try done.
  - by apply fit_room.
  - by apply envs_ok_tasks.
  - intros dd [p Hd]. destruct (Hadd p dd Hd) as [(d & ? & _)|]; [left; by exists d|by right].
  - intros dd d [p Hd] Ha. destruct (Hadd p dd Hd) as [(d' & Ha' & ?)|Hno].
    + by rewrite (adds_int_fun _ _ _ _ Ha Ha').
    + exfalso. by eapply Hno, adds_int_writes.
  - unfold i64_range in *; lia.
  - assert (Huse : forall a e c d r, task_call tasks a = Some (e, c) -> counter_use c k d -> got tasks x a r ->
      (0 <= d)%Z /\ exists p bl q, same_place tasks a p /\
        call_at (map dispatches tasks) p = Some (Call e (into_request bl) []) /\
        counter_call (Call e (into_request bl) []) k d /\ lreturned x p q /\
        forall z, responds e [] (VInteger z) q -> (z0 <= z <= zn)%Z -> r = ROk (RpValue (VInteger z))).
    { intros a e c d r Hc Hu Hg. assert (Hm : made_by_one tasks e c) by by eexists.
      destruct (Hsend _ _ Hm) as [He Hl]. split.
      { destruct Hu as [[_ ->]|Ha]; [done|]. by eapply Hamt. }
      pose proof (got_cases _ _ _ _ _ _ Hsend Hc Hg) as Hcs.
      assert (Hrf : refused c = None).
      { destruct Hu as [[Hrd _]|Ha]; [by eapply reads_refused|by eapply amount_refused]. }
      rewrite Hrf in Hcs. destruct Hcs as (p & bl & q & Hp & Hb & Hd & Hq & ->).
      exists p, bl, q. split_and!; try done.
      - destruct Hu as [[Hrd ->]|Ha].
        + left. split; [|done]. by eapply reads_built.
        + right. eapply amount_built; [done|by eapply Hd64|done|done].
      - intros z Hresp Hz'. assert (Hz : i64_range z) by (unfold i64_range in *; lia).
        destruct Hu as [[Hrd ->]|Ha].
        + eapply finish_read; [exact Hrd|by apply sound_int|done|done].
        + by eapply finish_amount. }
    exists zn. split; [done|]. split.
    + intros a e c d r Hc Hu Hg. destruct (Huse a e c d r Hc Hu Hg) as (Hd0 & p & bl & q & Hp & Hd & Hcc & Hq & Hfin).
      destruct (H2 p _ d q Hd Hcc Hq) as (z & Hresp & Hz). exists z. split; [|done].
      apply Hfin; [done|lia].
    + intros a b e e' c c' d d' r r' Hc Hc' Hu Hu' Hg Hg' Hear.
      destruct (Huse a e c d r Hc Hu Hg) as (Hd0 & p & bl & q & Hp & Hd & Hcc & Hq & Hfin).
      destruct (Huse b e' c' d' r' Hc' Hu' Hg') as (Hd0' & p' & bl' & q' & Hp' & Hd' & Hcc' & Hq' & Hfin').
      destruct (H3 p p' _ _ d d' q q' Hd Hd' Hcc Hcc' Hq Hq') as (z & z' & Hresp & Hresp' & Hz).
      { by eapply earlier_before. }
      exists z, z'. split_and!; [apply Hfin; [done|lia]|apply Hfin'; [done|lia]|lia..].
Qed.

(** ** Tasks: a value that is appended to *)

Lemma joined_grown u v w : joined u v = Some w -> grown u w.
Proof. destruct u, v; cbn; try done; intros [= <-]; by apply prefix_app_r. Qed.

Lemma c118_tasks_log sh tasks k s0 v0 sched x :
  tasks_fit tasks s0 -> sendable tasks -> ordinary k -> k <> [] -> st_keys s0 !! k = Some v0 -> appendable v0 ->
  (forall e c, made_by_one tasks e c ->
     (exists v, appends_value c k v /\ kind v = kind v0 /\ value_wf v) \/ ~ changes c k) ->
  at_work sh tasks s0 sched = Some x ->
  exists vn, (unlocked sh x k -> st_keys x.2 !! k = Some vn) /\
  (forall a e c r, task_call tasks a = Some (e, c) -> log_user c k (kind v0) -> refused c = None -> got tasks x a r ->
     exists u v, grown v0 u /\ log_use c k (kind v0) u v /\ grown v vn /\ (sound v -> r = ROk (RpValue v))) /\
  (forall a b e e' c c' r r', task_call tasks a = Some (e, c) -> task_call tasks b = Some (e', c') ->
     log_user c k (kind v0) -> log_user c' k (kind v0) -> refused c = None -> refused c' = None ->
     got tasks x a r -> got tasks x b r' -> earlier sh tasks s0 sched a b ->
     exists u v u' v', grown v0 u /\ log_use c k (kind v0) u v /\ grown v u' /\
       log_use c' k (kind v0) u' v' /\ grown v' vn /\
       (sound v -> r = ROk (RpValue v)) /\ (sound v' -> r' = ROk (RpValue v'))).
Proof.
  intros Hfit Hsend Hk Hne H0 Hap Hcalls Hx.
  assert (Hgk : forall u v, grown u v -> kind u = kind v /\ appendable u /\ appendable v) by (by intros [] []).
  destruct (c118_log_locked sh k (map dispatches tasks) s0 (kind v0) v0 sched x) as (vn & H1 & H2 & H3); try done.
  - by apply fit_room.
  - by apply envs_ok_tasks.
  - by destruct v0; try done; eexists.
  - intros d [b Hd]. destruct (call_at_tasks _ _ _ Hd) as (a & e & c & bl & _ & Hc & Hb & ->).
    assert (Hm : made_by_one tasks e c) by by eexists. destruct (Hsend _ _ Hm) as [He Hl].
    destruct (Hcalls _ _ Hm) as [(v & Hv & Hkd & Hwf)|Hno].
    + left. exists (value_args e v). rewrite <-Hkd at 1. split; [by eapply append_built|].
      rewrite <-joined_append by done. by destruct v0, v; try done; eexists.
    + right. intros Hw'. apply Hno. by eapply may_write_changes.
  - assert (Huse : forall a e c r, task_call tasks a = Some (e, c) -> log_user c k (kind v0) -> refused c = None ->
      got tasks x a r -> exists p bl q l, same_place tasks a p /\
        call_at (map dispatches tasks) p = Some (Call e (into_request bl) []) /\
        log_call (Call e (into_request bl) []) k (kind v0) l /\ lreturned x p q /\
        forall u v, grown v0 u -> append_to u l = Some v -> log_use c k (kind v0) u v /\
          (responds e [] v q -> sound v -> r = ROk (RpValue v))).
    { intros a e c r Hc Hu Hrf Hg. assert (Hm : made_by_one tasks e c) by by eexists.
      destruct (Hsend _ _ Hm) as [He Hl]. pose proof (got_cases _ _ _ _ _ _ Hsend Hc Hg) as Hcs.
      rewrite Hrf in Hcs. destruct Hcs as (p & bl & q & Hp & Hb & Hd & Hq & ->).
      destruct Hu as [Hrd|[v' Hv']].
      - exists p, bl, q, []. split_and!; try done; [left; split; [by eapply reads_built|done]|].
        intros u v Hu Ev. pose proof (append_none _ _ Ev) as ->. destruct (Hgk _ _ Hu) as (Ek & _).
        split; [by left|]. intros Hresp Hs. by eapply finish_read.
      - assert (Hkv : kind v' = kind v0 /\ value_wf v').
        { destruct (Hcalls _ _ Hm) as [(v2 & Hv2 & Hk2 & Hwf)|Hno].
          - assert (v2 = v') as -> by (destruct Hv' as [->| ->], Hv2 as [E|E]; congruence). done.
          - exfalso. by eapply Hno, appends_changes. }
        destruct Hkv as [Hkv Hwf].
        exists p, bl, q, (value_args e v'). split_and!; try done.
        + right. rewrite <-Hkv. by eapply append_built.
        + intros u v Hu Ev. destruct (Hgk _ _ Hu) as (Ek & _ & Hau). split.
          * right. exists v'. split; [done|]. rewrite (joined_append e); [done|done|by rewrite <-Ek|done].
          * intros Hresp Hs. eapply finish_append; [exact Hv'|done| |done].
            rewrite (append_to_kind _ _ _ Ev), <-Ek. done. }
    exists vn. split; [done|]. split.
    + intros a e c r Hc Hu Hrf Hg. destruct (Huse a e c r Hc Hu Hrf Hg) as (p & bl & q & l & Hp & Hd & Hcc & Hq & Hfin).
      destruct (H2 p _ l q Hd Hcc Hq) as (u & v & Hresp & Hgu & Hau & Hgv). exists u, v.
      destruct (Hfin u v Hgu Hau). split_and!; auto.
    + intros a b e e' c c' r r' Hc Hc' Hu Hu' Hrf Hrf' Hg Hg' Hear.
      destruct (Huse a e c r Hc Hu Hrf Hg) as (p & bl & q & l & Hp & Hd & Hcc & Hq & Hfin).
      destruct (Huse b e' c' r' Hc' Hu' Hrf' Hg') as (p' & bl' & q' & l' & Hp' & Hd' & Hcc' & Hq' & Hfin').
      destruct (H3 p p' _ _ l l' q q' Hd Hd' Hcc Hcc' Hq Hq') as (u & v & u' & w & Hresp & Hresp' & G1 & A1 & G2 & A2 & G3).
      { by eapply earlier_before. }
      destruct (Hfin u v G1 A1) as [F1 F2].
      destruct (Hfin' u' w) as [F3 F4]; [|done|].
      { eapply grown_trans; [exact G1|]. eapply grown_trans; [by eapply grown_append|done]. }
      exists u, v, u', w. split_and!; auto.
Qed.
