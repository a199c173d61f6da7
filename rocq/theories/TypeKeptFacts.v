(** A key keeps its type until it is set, deleted or renamed: proofs of C127. *)
From Verif Require Import Locks LockSpec LockFacts LockScripts LockScriptSpec LockScriptFacts.
From Verif Require Import Bytes BytesFacts Utf8 Float64 Value CommandId Request RequestSpec RequestFacts Response RespContext WireSpec
  EngineSpec Metrics Prog ProgFacts Commands CommandFacts HistorySpec EngineFacts EngineProps Concurrent ConcSpec ConcFacts Scripts LinSpec
  LinFacts KeyLinSpec KeyLin KeyLinFacts IsoSpec IsoFacts ScriptInv MomentSpec MomentFacts
  Client ClientSpec ClientFacts ClientProps MemTasks MemTaskSpec MemTaskFacts MemRaceSpec MemRaceFacts MemForwardSpec MemForward
  SeenSpec SeenFacts WroteSpec WroteFacts LedgerSpec LedgerFacts TypeKeptSpec.
From Verif Require MemLin MemFair.
From stdpp Require Import gmap list.
From Coq Require Import NArith ZArith Lia.
From Coq Require Import ZifyBool ZifyNat ZifyN.

(** ** How far a client is *)

Definition stage (cl : lclient) : nat := 2 * length (lc_done cl) + match lc_now cl with Some _ => 1 | None => 0 end.

Lemma stage_step sh i mid x y j cl : lsys_step sh i mid x = Some y -> x.1 !! j = Some cl ->
  exists cl', y.1 !! j = Some cl' /\ stage cl <= stage cl'.
Proof.
  destruct x as [lcs s]. unfold lsys_step. cbn [fst snd]. intros Hs Hj.
  destruct (lcs !! i) as [ci|] eqn:Hi; [|done].
  assert (Hgo : forall c' s', stage ci <= stage c' -> y = (<[i := c']> lcs, s') -> exists cl', y.1 !! j = Some cl' /\ stage cl <= stage cl').
  { intros c' s' Hle ->. cbn [fst]. destruct (decide (i = j)) as [<-|Hne].
    - rewrite list_lookup_insert by (by eapply lookup_lt_Some). exists c'. split; [done|]. by assert (cl = ci) as -> by congruence.
    - rewrite list_lookup_insert_ne by done. by exists cl. }
  destruct (lc_now ci) as [t|] eqn:Hnow.
  2: { destruct (lc_todo ci); [done|]. injection Hs as Hs. eapply Hgo; [|done]. unfold stage. rewrite Hnow. cbn. lia. }
  assert (Hact : forall t' s', y = (<[i := LClient (lc_done ci) (Some t') (lc_todo ci)]> lcs, s') ->
    exists cl', y.1 !! j = Some cl' /\ stage cl <= stage cl').
  { intros t' s' E. eapply Hgo; [|done]. unfold stage. by rewrite Hnow. }
  assert (Hl : match lact sh t s mid with
           | Some (t', s) => Some (<[i := LClient (lc_done ci) (Some t') (lc_todo ci)]> lcs, s)
           | None => None end = Some y -> exists cl', y.1 !! j = Some cl' /\ stage cl <= stage cl').
  { destruct (lact sh t s mid) as [[t' s']|]; [|done]. intros [= E]. by eapply Hact. }
  destruct t as [[]| | |];
    try (match type of Hs with (if ?c then _ else _) = _ => destruct c; [by apply Hl|done] end);
    try (by apply Hl).
  injection Hs as Hs. eapply Hgo; [|done]. unfold stage. rewrite Hnow. cbn. rewrite app_length. cbn. lia.
Qed.

Lemma stage_run sh : forall sched x y j cl, lsys_run sh sched x = Some y -> x.1 !! j = Some cl ->
  exists cl', y.1 !! j = Some cl' /\ stage cl <= stage cl'.
Proof.
  induction sched as [|[i mid] sched IH]; intros x y j cl Hy Hj; cbn in Hy.
  - injection Hy as <-. by exists cl.
  - destruct (lsys_step sh i mid x) as [z|] eqn:Hs; [|done]. destruct (stage_step _ _ _ _ _ _ _ Hs Hj) as (c1 & H1 & Hle).
    destruct (IH _ _ _ _ Hy H1) as (c2 & H2 & Hle2). exists c2. split; [done|lia].
Qed.

Lemma running_stage y b : running y b <-> exists cl, y.1 !! b.1 = Some cl /\ stage cl = 2 * b.2 + 1.
Proof.
  unfold running, stage. split; intros (cl & H1 & H2).
  - destruct H2 as [H2 H3]. exists cl. split; [done|]. rewrite H2. by destruct (lc_now cl).
  - exists cl. destruct (lc_now cl); [split_and!; [done|lia|done]|lia].
Qed.

(** A call that runs at two moments runs in between. *)
Lemma running_between sh scripts s0 sched b i n m yi yn ym :
  lsys_run sh (take i sched) (lbegin scripts s0) = Some yi -> lsys_run sh (take n sched) (lbegin scripts s0) = Some yn ->
  lsys_run sh (take m sched) (lbegin scripts s0) = Some ym ->
  i <= n -> n <= m -> running yi b -> running ym b -> running yn b.
Proof.
  intros Hi Hn Hm Hin Hnm (ci & H1 & E1)%running_stage (cm & H2 & E2)%running_stage. apply running_stage.
  assert (Hpre : forall p q yp yq c, p <= q -> lsys_run sh (take p sched) (lbegin scripts s0) = Some yp ->
    lsys_run sh (take q sched) (lbegin scripts s0) = Some yq -> yp.1 !! b.1 = Some c ->
    exists c', yq.1 !! b.1 = Some c' /\ stage c <= stage c').
  { intros p q yp yq c Hpq Hp Hq Hc. replace (take q sched) with (take p sched ++ drop p (take q sched)) in Hq.
    2: { rewrite <-(take_drop p (take q sched)) at 2. f_equal. rewrite take_take. f_equal. lia. }
    rewrite lsys_run_app, Hp in Hq. cbn in Hq. by eapply stage_run. }
  destruct (Hpre i n yi yn ci Hin Hi Hn H1) as (cn & H3 & Hle). exists cn. split; [done|].
  destruct (Hpre n m yn ym cn Hnm Hn Hm H3) as (c' & H4 & Hle'). assert (c' = cm) as -> by congruence. lia.
Qed.

(** ** What adding does to the type *)

Lemma koi_kind e k d u w : (forall v, kind (u v).1 = kind v) ->
  exists w', st_keys (run (key_or_insert_with e k d u) (just k (Some w))).1 !! k = Some w' /\ kind w' = kind w.
Proof.
  intros Hu. unfold key_or_insert_with, guarded. destruct (starts_with k reserved_prefix).
  { exists w. cbn [run fst]. by rewrite just_at. }
  destruct (debug e && _). { exists w. cbn [run fst]. by rewrite just_at. }
  cbn [run]. rewrite just_at. cbn [from_option id]. specialize (Hu w). destruct (u w) as [w' r]. exists w'.
  unfold with_keys. cbn. by rewrite lookup_insert.
Qed.

Lemma add_kind e req res k w :
  r_command req = CIncrement \/ r_command req = CDecrement \/ r_command req = CIncrementBy \/ r_command req = CDecrementBy \/
  r_command req = CAppend -> arg req 0 = Some k ->
  exists w', st_keys (dispatch e (just k (Some w)) req res).1 !! k = Some w' /\ kind w' = kind w.
Proof.
  intros Hc Hk. destruct (dispatch_cmd e (just k (Some w)) req res (just_room _ _)) as [_ ->].
  assert (Hret : forall r, exists w', st_keys (run (PRet r) (just k (Some w))).1 !! k = Some w' /\ kind w' = kind w).
  { intros r. exists w. cbn [run fst]. by rewrite just_at. }
  assert (Hint : forall z, exists w', st_keys (run (increment_int_by e k z res) (just k (Some w))).1 !! k = Some w' /\ kind w' = kind w).
  { intros z. apply koi_kind. intros v. unfold with_variant. destruct v; cbn; try done. by destruct (i64_checked _ _). }
  assert (Hflt : forall f, exists w', st_keys (run (increment_float_by e k f res) (just k (Some w))).1 !! k = Some w' /\ kind w' = kind w).
  { intros f. apply koi_kind. intros v. unfold with_variant. by destruct v. }
  assert (Hkey : forall k', key req = Some k' -> k' = k).
  { intros k'. unfold key. rewrite Hk. destruct (r_command req); cbn; congruence. }
  unfold command_prog. destruct Hc as [E|[E|[E|[E|E]]]]; rewrite E.
  - unfold cmd_increment. destruct (key req) as [k'|] eqn:Ek; [|apply Hret]. rewrite (Hkey _ eq_refl). by destruct (wants_float req).
  - unfold cmd_decrement. destruct (key req) as [k'|] eqn:Ek; [|apply Hret]. rewrite (Hkey _ eq_refl). by destruct (wants_float req).
  - unfold cmd_increment_by. destruct (key req) as [k'|] eqn:Ek; [|apply Hret]. rewrite (Hkey _ eq_refl).
    destruct (typed_arg convert_i64 req 1); [done|]. destruct (typed_arg convert_f64 req 1); [done|]. apply Hret.
  - unfold cmd_decrement_by. destruct (key req) as [k'|] eqn:Ek; [|apply Hret]. rewrite (Hkey _ eq_refl).
    destruct (typed_arg convert_i64 req 1). { destruct (i64_checked _ _); [done|]. apply Hret. }
    destruct (typed_arg convert_f64 req 1); [done|]. apply Hret.
  - unfold cmd_append. rewrite Hk. destruct (args_from req 1) as [a|]; [|apply Hret].
    assert (Hb : forall t, exists w', st_keys (run (match t with KTBytes => append_bytes e a res k
        | KTList => append_list e a res k | KTString => append_string e a res k
        | _ => fail res EKeyTypeDifferent end) (just k (Some w))).1 !! k = Some w' /\ kind w' = kind w).
    { intros []; try apply Hret; apply koi_kind; intros v; unfold with_variant; by destruct v. }
    unfold resolve_type. destruct (r_key_type req) as [t|]; [apply Hb|]. cbn [run]. rewrite just_at. apply (Hb (kind w)).
Qed.

(** ** The theorems *)

Lemma c127_settled sh scripts s0 sched k n n' v o :
  room_for_all scripts s0 -> n <= n' ->
  held sh scripts s0 sched k n (Some v) -> held sh scripts s0 sched k n' o ->
  (forall b c m m' p p', call_at scripts b = Some c -> n <= m -> m' <= n' ->
     replaced sh scripts s0 sched b k m m' p p' -> ~ reshapes c k) ->
  (forall b i y, i <= n -> noticed sh scripts s0 sched b k i None ->
     lsys_run sh (take n sched) (lbegin scripts s0) = Some y -> ~ running y b) ->
  exists v', o = Some v' /\ kind v' = kind v.
Proof.
  intros Hroom Hle Hv Ho Hre Hnew.
  pose proof (c125_ledger _ _ _ _ _ _ _ _ _ Hroom Hle Hv Ho) as HL. clear Ho Hle.
  assert (Hgen : forall x p, ledger sh scripts s0 sched k n (Some v) x p -> x <= n' -> exists v', p = Some v' /\ kind v' = kind v);
    [|by apply (Hgen n' o)].
  clear HL o. intros x. induction (lt_wf x) as [x _ IH]. intros p HL Hx.
  assert (Hge : forall x p, ledger sh scripts s0 sched k n (Some v) x p -> n <= x).
  { intros x0 p0 H. induction H as [|x0 m m' b c q q' H IH0 _ Hr0 _ Hx0]; [done|]. destruct Hr0. lia. }
  destruct HL as [x Hnx|x m m' b c q q' HL Hc Hrp Hch Hmx]; [by exists v|].
  assert (Hm : S m < m') by by destruct Hrp. pose proof (Hge _ _ HL) as Hnm.
  destruct (IH m ltac:(lia) q HL ltac:(lia)) as (w & -> & Hw).
  assert (Hnr : ~ reshapes c k) by (by eapply (Hre b c m m'); [done|done|lia|]).
  unfold reshapes in Hnr. unfold may_change in Hch. cbn zeta in Hch.
  assert (Hadd : r_command (c_req c) = CIncrement \/ r_command (c_req c) = CDecrement \/ r_command (c_req c) = CIncrementBy \/
      r_command (c_req c) = CDecrementBy \/ r_command (c_req c) = CAppend ->
    arg (c_req c) 0 = Some k /\
    ((r_command (c_req c) = CSet /\ q' = None) \/
     (exists t i, i <= m /\ noticed sh scripts s0 sched b k i None /\
        goes_by sh scripts s0 sched b (c_req c) k i t /\ q' = Some (blank t)) \/
     (exists v, Some w = Some v /\
        q' = st_keys (dispatch (c_env c) (just k (Some v)) (c_req c) (c_res c)).1 !! k)) ->
    exists v', q' = Some v' /\ kind v' = kind v).
  { intros Hcmd [Ha [[E _]|[(t & i & Hi & Hno & _ & ->)|(w' & [= <-] & ->)]]].
    - exfalso. rewrite E in Hcmd. by destruct Hcmd as [[=]|[[=]|[[=]|[[=]|[=]]]]].
    - exfalso. destruct (le_lt_dec n i) as [Hni|Hin].
      + assert (Hh : held sh scripts s0 sched k i None).
        { destruct Hno as (H1 & y & Hy & _ & Hu & Hk0). split; [done|]. by exists y. }
        pose proof (c125_ledger _ _ _ _ _ _ _ _ _ Hroom Hni Hv Hh) as HL'.
        destruct (IH i ltac:(lia) None HL' ltac:(lia)) as (w' & E & _). done.
      + destruct Hv as (_ & yn & Hyn & _). destruct Hrp as (_ & (_ & ym & Hym & Hrm & _) & _).
        eapply (Hnew b i yn); [lia|done|done|]. destruct Hno as (_ & yi & Hyi & Hri & _).
        eapply (running_between sh scripts s0 sched b i n m yi yn ym); [done|done|done|lia|lia|done|done].
    - destruct (add_kind (c_env c) (c_req c) (c_res c) k w Hcmd Ha) as (w' & -> & E). exists w'. split; [done|]. congruence. }
  destruct (r_command (c_req c)); try done; try (apply Hadd; [tauto|done]).
  - exfalso. apply Hnr, Hch.
  - exfalso. destruct Hch as (k0 & d & i & Hk0 & Hd & _ & _ & [[-> _]|[-> _]]); apply Hnr; first [by left|by right].
Qed.

Lemma c127_kept sh scripts s0 sched k n v o :
  room_for_all scripts s0 -> st_keys s0 !! k = Some v ->
  (forall b c, call_at scripts b = Some c -> ~ reshapes c k) ->
  held sh scripts s0 sched k n o ->
  exists v', o = Some v' /\ kind v' = kind v.
Proof.
  intros Hroom Hv Hno Ho. pose proof (held_start sh scripts s0 sched k) as H0. rewrite Hv in H0.
  eapply (c127_settled sh scripts s0 sched k 0 n); [done|lia|done|done| |].
  - intros b c m m' p p' Hc _ _ _. by eapply Hno.
  - intros b i y Hi (_ & y' & Hy' & _ & _ & E) _ _. assert (i = 0) as -> by lia. cbn in Hy'. injection Hy' as <-. cbn in E. congruence.
Qed.

Lemma reshapes_tasks e c bl k : env_ok e -> (sends c <= 255)%N -> build e c = ROk bl ->
  reshapes (Call e (into_request bl) []) k -> task_reshapes c k.
Proof.
  intros He Hl Hb. pose proof (build_asks e c bl He Hl Hb) as Ha. unfold reshapes, task_reshapes. cbn [c_req].
  destruct c; cbn in Ha; destruct Ha as (Hcmd & Hkt & Hargs); rewrite Hcmd; try done;
    rewrite ?(carried_arg _ _ _ Hargs); cbn.
  all: try (intros [= ->]; first [left; eexists; by left|left; eexists; by right|by right; left]).
  intros [[= ->]|[= ->]]; do 2 right; [left|right]; by eexists.
Qed.

Lemma held_call sh tasks s0 sched b y n : lsys_run sh (take n sched) (lbegin (map dispatches tasks) s0) = Some y -> running y b ->
  exists d, call_at (map dispatches tasks) b = Some d.
Proof.
  intros Hy (cl & Hcl & Hd & Hnow). destruct (lc_now cl) as [t|] eqn:Et; [|done].
  destruct (call_made _ _ _ _ _ _ _ _ Hy Hcl Et) as [d Hc]. exists d. by destruct b as [i j]; cbn in *; subst j.
Qed.

Lemma c127_tasks_settled sh tasks s0 sched k n n' v o :
  sendable tasks -> tasks_fit tasks s0 -> n <= n' ->
  task_held sh tasks s0 sched k n (Some v) -> task_held sh tasks s0 sched k n' o ->
  (forall a e c m m' p p', task_call tasks a = Some (e, c) -> n <= m -> m' <= n' ->
     task_replaced sh tasks s0 sched a k m m' p p' -> ~ task_reshapes c k) ->
  (forall a i y, i <= n -> task_noticed sh tasks s0 sched a k i None ->
     at_work sh tasks s0 (take n sched) = Some y -> ~ task_running tasks y a) ->
  exists v', o = Some v' /\ kind v' = kind v.
Proof.
  intros Hsend Hfit Hle Hv Ho Hre Hnew.
  eapply (c127_settled sh (map dispatches tasks) s0 sched k n n'); [by apply fit_room|done|done|done| |].
  - intros b d m m' p p' Hd H1 H2 Hrp Hsh. destruct (MemLin.back_spec _ _ _ Hd) as (e & c & bl & Hs & Hc & Hb & ->).
    assert (Hm : made_by_one tasks e c) by by eexists. destruct (Hsend _ _ Hm) as [He Hl].
    eapply (Hre _ e c m m'); [done|done|done|by eapply replaced_tasks|by eapply reshapes_tasks].
  - intros b i y Hi Hno Hy Hr.
    destruct (held_call sh tasks s0 sched b y n Hy Hr) as [d Hd].
    destruct (MemLin.back_spec _ _ _ Hd) as (e & c & bl & Hs & Hc & Hb & ->).
    eapply (Hnew _ i y); [done|by eapply noticed_tasks|done|by eapply running_tasks].
Qed.

Lemma c127_tasks_kept sh tasks s0 sched k n v o :
  sendable tasks -> tasks_fit tasks s0 -> st_keys s0 !! k = Some v ->
  (forall e c, made_by_one tasks e c -> ~ task_reshapes c k) ->
  task_held sh tasks s0 sched k n o ->
  exists v', o = Some v' /\ kind v' = kind v.
Proof.
  intros Hsend Hfit Hv Hno Ho. eapply (c127_kept sh (map dispatches tasks) s0 sched k n); [by apply fit_room|done| |done].
  intros b d Hd Hsh. destruct (MemLin.back_spec _ _ _ Hd) as (e & c & bl & Hs & Hc & Hb & ->).
  assert (Hm : made_by_one tasks e c) by by eexists. destruct (Hsend _ _ Hm) as [He Hl].
  eapply (Hno e c Hm). by eapply reshapes_tasks.
Qed.
