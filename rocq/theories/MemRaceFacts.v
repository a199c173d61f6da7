(** Tasks that race for one key through a shared memory client: the proofs of C116 and C117. *)
From Verif Require Import Locks LockSpec LockScripts LockScriptSpec.
From Verif Require Import Bytes BytesFacts Utf8 Float64 Value CommandId
  Request Response RespContext Metrics Prog Commands EngineSpec WireSpec RequestSpec
  HistorySpec EngineProps ConcSpec ConcProps Scripts LinSpec LinFacts KeyLinSpec KeyLin KeyLinFacts
  LockScriptFacts ScriptBound Client ClientSpec ClientFacts ClientProps MemTasks MemTaskSpec MemTaskFacts
  MemAppendSpec MemAppend SetRaceSpec SetRaceFacts TakeRaceSpec TakeRaceFacts MemRaceSpec.
From stdpp Require Import gmap list.
From Coq Require Import NArith ZArith Lia ZifyBool ZifyNat ZifyN.

(** ** Set *)

Lemma c114_locked_outcomes sh k scripts s0 lsched x a c kt l r :
  room_for_all scripts s0 -> envs_ok scripts -> ordinary k -> only_set k scripts ->
  lsys_run sh lsched (lbegin scripts s0) = Some x ->
  call_at scripts a = Some c -> asks (c_req c) CSet kt (k :: l) -> lreturned x a r ->
  (exists v, spelt k c v /\ responds (c_env c) (c_res c) v r) \/
  (r = CErr EArgumentRetrieval (c_res c) /\ exists t, (kt = None \/ kt = Some t) /\ value_of t l = None) \/
  r = CErr EKeyTypeDifferent (c_res c).
Proof.
  intros Hroom Henv Hk Honly Hr Hc Hq Hret.
  destruct (lock_transfer _ _ _ _ _ Hr) as (sched & y & f & Hy & Hi & _).
  apply (sinv_returned _ _ _ _ _ Hi) in Hret. by eapply c114_outcomes.
Qed.

Lemma c114_locked_same_type sh k scripts s0 t lsched x :
  room_for_all scripts s0 -> envs_ok scripts -> ordinary k -> only_set k scripts ->
  (forall c kt l, issued scripts c -> asks (c_req c) CSet kt (k :: l) ->
     kt = Some t /\ is_Some (value_of t l)) ->
  lsys_run sh lsched (lbegin scripts s0) = Some x ->
  forall a c l r, call_at scripts a = Some c -> asks (c_req c) CSet (Some t) (k :: l) -> lreturned x a r ->
    exists v, value_of t l = Some v /\ responds (c_env c) (c_res c) v r.
Proof.
  intros Hroom Henv Hk Honly Hall Hr a c l r Hc Hq Hret.
  destruct (lock_transfer _ _ _ _ _ Hr) as (sched & y & f & Hy & Hi & _).
  apply (sinv_returned _ _ _ _ _ Hi) in Hret. by eapply c114_same_type.
Qed.

Lemma set_built e c k v b : env_ok e -> (sends c <= 255)%N -> sets_value c k v ->
  build e c = ROk b -> asks (into_request b) CSet (Some (kind v)) (k :: value_args e v).
Proof.
  intros He Hs Hc Hb. pose proof (build_asks e c b He Hs Hb) as Ha. by destruct Hc as [->| ->].
Qed.

Lemma set_changes c k v : sets_value c k v -> changes c k.
Proof. intros [->| ->]; cbn; by apply elem_of_list_singleton. Qed.

Lemma set_arg_value e c k v : env_ok e -> sets_value c k v -> refused c = None -> sound v ->
  value_of (kind v) (value_args e v) = Some v.
Proof.
  intros He Hc Hr (Hwf & _ & _ & Hl & _). apply spells_value_of; [done|by apply value_args_spells|].
  apply value_args_nonempty; [done| |done].
  destruct Hc as [->| ->]; cbn in Hr; destruct (is_empty k), (value_empty v); done.
Qed.

Lemma set_spelt e c k v b v' : env_ok e -> (sends c <= 255)%N -> sets_value c k v -> sound v ->
  refused c = None -> build e c = ROk b -> spelt k (Call e (into_request b) []) v' -> v' = v.
Proof.
  intros He Hs Hc Hv Hr Hb (kt & l & t & (_ & Hkt & Hl) & Ht & Hval).
  pose proof (set_built _ _ _ _ _ He Hs Hc Hb) as (_ & Hkt' & Hl').
  cbn [c_req] in *. pose proof (carries_fun _ _ _ Hl Hl') as [= ->].
  assert (t = kind v) as -> by (destruct Ht as [-> | ->]; congruence).
  rewrite (set_arg_value _ _ _ _ He Hc Hr Hv) in Hval. by injection Hval.
Qed.

Lemma finish_set e c k v r : sets_value c k v -> sound v -> responds e [] v r ->
  finish e c r = ROk (RpValue v).
Proof.
  intros Hc Hv Hr. pose proof Hv as (Hwf & Hl & _).
  destruct Hr as [(msg & -> & Hf)|(_ & Hn & _)]; [|done].
  unfold finish, received. cbn [app] in *. rewrite (Hf Hl (debug e) Hwf (sound_decodable _ _ Hv)).
  destruct Hc as [->| ->]; cbn; [done|]. unfold of_kind. by rewrite decide_True.
Qed.

Lemma sets_value_inj c k v v' : sets_value c k v -> sets_value c k v' -> v = v'.
Proof. intros [->| ->] [[=]|[=]]; done. Qed.

Lemma build_refused e c b : env_ok e -> (sends c <= 255)%N -> build e c = ROk b -> refused c = None.
Proof.
  intros He Hl Hb. destruct (refused c) as [err|] eqn:Hr; [|done].
  by rewrite (makes_refused e c err He Hl Hr) in Hb.
Qed.

(** A call that has returned: it was refused, or its dispatch has returned. *)
Lemma got_cases tasks x a e c r : sendable tasks -> task_call tasks a = Some (e, c) -> got tasks x a r ->
  match refused c with
  | Some err => r = RErr err
  | None => exists b bl q, same_place tasks a b /\ build e c = ROk bl /\
      call_at (map dispatches tasks) b = Some (Call e (into_request bl) []) /\
      lreturned x b q /\ r = finish e c q
  end.
Proof.
  intros Hsend Hc Hg. assert (Hm : made_by_one tasks e c) by by eexists.
  destruct (Hsend _ _ Hm) as [He Hl]. destruct (refused c) as [err|] eqn:Hr.
  - destruct Hg as (h & cl & Hh & _ & Hg). unfold task_call in Hc. rewrite Hh in Hc. cbn in Hc.
    eapply results_refused; [exact Hc| |exact Hg]. by apply makes_refused.
  - destruct (makes_built e c He Hl Hr) as (bl & Hbd & _).
    destruct (tasks_call_at _ _ _ _ _ Hc Hbd) as (b & Hs & Hd).
    destruct (got_returned _ _ _ _ _ _ _ Hs Hc Hg) as (q & Hq & ->). exists b, bl, q. done.
Qed.

Lemma envs_ok_tasks tasks : sendable tasks -> envs_ok (map dispatches tasks).
Proof.
  intros Hsend d [b Hd]. destruct (call_at_tasks _ _ _ Hd) as (a & e & c & bl & _ & Hc & Hb & ->).
  cbn. eapply Hsend. by eexists.
Qed.

(** A dispatch that has returned belongs to a call that has. *)
Lemma returned_got tasks x a b e c q : same_place tasks a b -> task_call tasks a = Some (e, c) ->
  lreturned x b q -> got tasks x a (finish e c q).
Proof.
  intros (E & h & e' & c' & bl & Hh & Hj & Hb & En) Hc (cl & Hcl & Hq).
  unfold task_call in Hc. rewrite Hh in Hc. cbn in Hc. rewrite Hj in Hc. injection Hc as -> ->.
  exists h, cl. rewrite E. split; [by rewrite <-E|]. split; [done|].
  rewrite (results_at _ _ _ _ _ _ Hj Hb). rewrite <-En, Hq. done.
Qed.

Lemma run_clients scripts s0 sched x : sys_run sched (begin scripts s0) = Some x ->
  length x.1 = length scripts.
Proof.
  assert (H : forall y, sys_run sched y = Some x -> length x.1 = length y.1).
  { induction sched as [|i sched IH]; intros y Hy; cbn in Hy; [by injection Hy as ->|].
    destruct (sys_step i y) as [z|] eqn:Hz; [|done]. cbn in Hy.
    by rewrite (IH z Hy), (sys_step_length _ _ _ Hz). }
  intros Hy. rewrite (H _ Hy). unfold begin. cbn. by rewrite map_length.
Qed.

Section sets.
  Context (tasks : list task) (k : bytes).
  Hypothesis Hsend : sendable tasks.
  Hypothesis Hcalls : forall e c, made_by_one tasks e c ->
    (exists v, sets_value c k v /\ sound v) \/ ~ changes c k.

  Lemma sets_only : only_set k (map dispatches tasks).
  Proof using Hsend Hcalls.
    intros d [b Hd] Hw. destruct (call_at_tasks _ _ _ Hd) as (a & e & c & bl & _ & Hc & Hb & ->).
    assert (Hm : made_by_one tasks e c) by by eexists. destruct (Hsend _ _ Hm) as [He Hl].
    destruct (Hcalls _ _ Hm) as [(v & Hv & _)|Hno].
    - eexists _, _. cbn. by eapply set_built.
    - exfalso. apply Hno. by eapply may_write_changes.
  Qed.

  Lemma sets_sound e c v : made_by_one tasks e c -> sets_value c k v -> sound v.
  Proof using Hcalls.
    intros Hm Hv. destruct (Hcalls _ _ Hm) as [(v' & Hv' & Hs)|Hno].
    - by rewrite (sets_value_inj _ _ _ _ Hv Hv').
    - by destruct Hno; eapply set_changes.
  Qed.

  (** A dispatch that is a Set of the key. *)
  Lemma set_dispatch b d : call_at (map dispatches tasks) b = Some d -> set_of k d ->
    exists a e c bl v, same_place tasks a b /\ task_call tasks a = Some (e, c) /\ build e c = ROk bl /\
      d = Call e (into_request bl) [] /\ sets_value c k v /\ sound v /\ env_ok e /\ (sends c <= 255)%N.
  Proof using Hsend Hcalls.
    intros Hd (kt & l & Hq). destruct (call_at_tasks _ _ _ Hd) as (a & e & c & bl & Hp & Hc & Hb & ->).
    assert (Hm : made_by_one tasks e c) by by eexists. destruct (Hsend _ _ Hm) as [He Hl].
    destruct (Hcalls _ _ Hm) as [(v & Hv & Hs)|Hno].
    - exists a, e, c, bl, v. done.
    - exfalso. apply Hno. eapply may_write_changes; [done|done|exact Hb|].
      pose proof Hq as (Hcm & _). cbn [c_req] in Hcm, Hq. split; [by rewrite Hcm|].
      unfold names. left. by eapply asks_arg0.
  Qed.
End sets.

Lemma c116 sh tasks k s0 sched x :
  tasks_fit tasks s0 -> sendable tasks -> ordinary k ->
  (forall e c, made_by_one tasks e c -> (exists v, sets_value c k v /\ sound v) \/ ~ changes c k) ->
  at_work sh tasks s0 sched = Some x ->
  (forall a e c v r, task_call tasks a = Some (e, c) -> sets_value c k v -> got tasks x a r ->
     match refused c with
     | Some err => r = RErr err
     | None => r = ROk (RpValue v) \/ r = RErr (CERunningCommand EKeyTypeDifferent)
     end) /\
  (Forall lfinished x.1 -> unlocked sh x k ->
   (exists a e c v, task_call tasks a = Some (e, c) /\ sets_value c k v /\ got tasks x a (ROk (RpValue v)) /\
      st_keys x.2 !! k = Some v /\
      forall b e' c' v', task_call tasks b = Some (e', c') -> sets_value c' k v' ->
        got tasks x b (ROk (RpValue v')) -> ~ earlier sh tasks s0 sched a b) \/
   (st_keys x.2 !! k = st_keys s0 !! k /\
    forall a e c v r, task_call tasks a = Some (e, c) -> sets_value c k v -> got tasks x a r ->
      exists err, r = RErr err)).
Proof.
  intros Hfit Hsend Hk Hcalls Hx.
  assert (Hout : forall a e c v b bl q, task_call tasks a = Some (e, c) -> sets_value c k v ->
    refused c = None -> build e c = ROk bl ->
    call_at (map dispatches tasks) b = Some (Call e (into_request bl) []) -> lreturned x b q ->
    (finish e c q = ROk (RpValue v) /\ is_ok q = true) \/
    (finish e c q = RErr (CERunningCommand EKeyTypeDifferent) /\ is_ok q = false)).
  { intros a e c v b bl q Hc Hv Hr Hb Hd Hq. assert (Hm : made_by_one tasks e c) by by eexists.
    destruct (Hsend _ _ Hm) as [He Hl]. pose proof (sets_sound _ _ Hcalls _ _ _ Hm Hv) as Hs.
    pose proof (set_built _ _ _ _ _ He Hl Hv Hb) as Ha.
    edestruct (c114_locked_outcomes sh k (map dispatches tasks) s0 sched x b) as [(v' & Hsp & Hresp)|[(-> & t & Ht & Hno)| ->]];
      [by apply fit_room|by apply envs_ok_tasks|done|by apply sets_only|exact Hx|exact Hd|exact Ha|exact Hq|..].
    - rewrite (set_spelt _ _ _ _ _ _ He Hl Hv Hs Hr Hb Hsp) in Hresp. cbn in Hresp. left. split.
      + by eapply finish_set.
      + destruct Hresp as [(msg & -> & _)|(_ & Hn & _)]; [done|]. by destruct Hs as (_ & ? & _).
    - assert (t = kind v) as -> by (by destruct Ht as [|[=]]).
      by rewrite (set_arg_value e c k v) in Hno.
    - by right. }
  split.
  - intros a e c v r Hc Hv Hg. pose proof (got_cases _ _ _ _ _ _ Hsend Hc Hg) as H.
    destruct (refused c) eqn:Hr; [done|]. destruct H as (b & bl & q & Hp & Hb & Hd & Hq & ->).
    destruct (Hout a e c v b bl q) as [[-> _]|[-> _]]; auto.
  - intros Hfin Hu.
    destruct (c114_locked sh k (map dispatches tasks) s0 sched x) as [_ H];
      [by apply fit_room|by apply envs_ok_tasks|done|by apply sets_only|exact Hx|exact Hu|].
    destruct H as [(b & d & v & q & Hd & Hsp & Hq & Hok & Hresp & Hend & Hlast)|[Hend Hno]].
    + apply Forall2_same_length_lookup. split.
      * destruct (lock_transfer _ _ _ _ _ Hx) as (sched' & y & f & Hy & Hs & _).
        rewrite (Forall2_length _ _ _ (sinv_clients _ _ _ Hs)).
        by rewrite (run_clients _ _ _ _ Hy).
      * intros i sc cl Hsc Hcl. eapply lfinished_all; [by apply fit_room|exact Hx|done..|].
        by eapply (Forall_lookup_1 lfinished).
    + intros b d Hd Hset Hp.
      destruct (set_dispatch tasks k Hsend Hcalls b d Hd Hset) as (a & e & c & bl & v & Hpl & Hc & Hb & -> & Hv & Hs & He & Hl).
      destruct (Hout a e c v b bl CPanic) as [[_ ?]|[? _]]; try done. by eapply build_refused.
    + left. assert (Hset : set_of k d) by (destruct Hsp as (kt & l & t & ? & _); by exists kt, l).
      destruct (set_dispatch tasks k Hsend Hcalls b d Hd Hset) as (a & e & c & bl & v' & Hpl & Hc & Hb & -> & Hv & Hs & He & Hl).
      pose proof (build_refused _ _ _ He Hl Hb) as Hr.
      pose proof (set_spelt _ _ _ _ _ _ He Hl Hv Hs Hr Hb Hsp) as ->.
      exists a, e, c, v'. split_and!; try done.
      * rewrite <-(finish_set e c k v' q) by done. by eapply returned_got.
      * intros a' e' c' w Hc' Hv' Hg Hear. pose proof (got_cases _ _ _ _ _ _ Hsend Hc' Hg) as Hcs.
        destruct (refused c') eqn:Hr'; [done|]. destruct Hcs as (b' & bl' & q' & Hp' & Hb' & Hd' & Hq' & E).
        eapply (Hlast b'); [exact Hd'| |exact Hq'| |by eapply earlier_before].
        -- eexists _, _. cbn. eapply set_built; [| |exact Hv'|exact Hb']; eapply Hsend; by eexists.
        -- destruct (Hout a' e' c' w b' bl' q') as [[_ ?]|[E' _]]; try done. by rewrite <-E in E'.
    + right. split; [done|]. intros a e c v r Hc Hv Hg. pose proof (got_cases _ _ _ _ _ _ Hsend Hc Hg) as Hcs.
      destruct (refused c) eqn:Hr; [by eexists|]. destruct Hcs as (b & bl & q & Hp & Hb & Hd & Hq & ->).
      destruct (Hout a e c v b bl q) as [[_ Hok]|[-> _]]; try done; [|by eexists].
      rewrite (Hno b _ q Hd) in Hok; try done.
      eexists _, _. cbn. eapply set_built; [| |exact Hv|exact Hb]; eapply Hsend; by eexists.
Qed.

Lemma c116_same_kind sh tasks k s0 t sched x :
  tasks_fit tasks s0 -> sendable tasks -> ordinary k ->
  (forall e c, made_by_one tasks e c ->
     (exists v, sets_value c k v /\ sound v /\ kind v = t) \/ ~ changes c k) ->
  at_work sh tasks s0 sched = Some x ->
  forall a e c v r, task_call tasks a = Some (e, c) -> sets_value c k v -> got tasks x a r ->
    r = match refused c with Some err => RErr err | None => ROk (RpValue v) end.
Proof.
  intros Hfit Hsend Hk Hcalls Hx a e c v r Hc Hv Hg.
  assert (Hcalls' : forall e c, made_by_one tasks e c -> (exists v, sets_value c k v /\ sound v) \/ ~ changes c k).
  { intros e' c' Hm. destruct (Hcalls _ _ Hm) as [(v' & ? & ? & _)|]; [left; by exists v'|by right]. }
  assert (Hkind : forall e c v, made_by_one tasks e c -> sets_value c k v -> kind v = t).
  { intros e' c' v' Hm Hv'. destruct (Hcalls _ _ Hm) as [(w & Hw & _ & Hkw)|Hno].
    - by rewrite (sets_value_inj _ _ _ _ Hv' Hw).
    - destruct Hno. by eapply set_changes. }
  pose proof (got_cases _ _ _ _ _ _ Hsend Hc Hg) as Hcs.
  destruct (refused c) eqn:Hr; [done|]. destruct Hcs as (b & bl & q & Hp & Hb & Hd & Hq & ->).
  assert (Hm : made_by_one tasks e c) by by eexists. destruct (Hsend _ _ Hm) as [He Hl].
  pose proof (sets_sound _ _ Hcalls' _ _ _ Hm Hv) as Hs.
  pose proof (set_built _ _ _ _ _ He Hl Hv Hb) as Ha. rewrite (Hkind e c v Hm Hv) in Ha.
  edestruct (c114_locked_same_type sh k (map dispatches tasks) s0 t sched x) as (w & Hw & Hresp);
    [by apply fit_room|by apply envs_ok_tasks|done|by apply sets_only| |exact Hx|exact Hd|exact Ha|exact Hq|].
  - intros d kt l [b' Hd'] Hq'.
    destruct (set_dispatch tasks k Hsend Hcalls' b' d Hd') as (a' & e' & c' & bl' & v' & Hpl & Hc' & Hb' & -> & Hv' & Hs' & He' & Hl').
    { by exists kt, l. }
    pose proof (set_built _ _ _ _ _ He' Hl' Hv' Hb') as (_ & Hkt & Hcar).
    destruct Hq' as (_ & Hkt' & Hcar'). cbn [c_req] in *.
    pose proof (carries_fun _ _ _ Hcar' Hcar) as [= ->].
    rewrite <-(Hkind e' c' v') by (done || by eexists). split; [congruence|].
    rewrite (set_arg_value e' c' k v'); try done. by eapply build_refused.
  - rewrite <-(Hkind e c v Hm Hv), (set_arg_value e c k v) in Hw by done. injection Hw as <-.
    by eapply finish_set.
Qed.

(** ** Delete and Rename *)

Lemma rename_built e k b bl : env_ok e -> build e (KRename k b) = ROk bl ->
  sent_to k b (Call e (into_request bl) []).
Proof.
  intros He Hb. pose proof (build_asks e (KRename k b) bl He ltac:(done) Hb) as Ha. by exists [].
Qed.

Lemma finish_name e c k b r : c = KDelete k \/ c = KRename k b -> b <> [] -> (lenN b < 2 ^ 32 - 16)%N ->
  responds e [] (VBytes b) r -> finish e c r = ROk (RpBytes b).
Proof.
  intros Hc Hne Hlen Hr. pose proof (sound_key b Hne Hlen) as Hv. pose proof Hv as (Hwf & Hlim & _).
  destruct Hr as [(msg & -> & Hf)|(_ & Hn & _)]; [|done].
  unfold finish, received. cbn [app] in *. rewrite (Hf Hlim (debug e) Hwf (sound_decodable _ _ Hv)).
  by destruct Hc as [->| ->].
Qed.

Lemma takes_changes k c : takes_away k c -> changes c k.
Proof. intros [->|(b & _ & ->)]; cbn; by left. Qed.

Lemma deletes_not_rename d k b : deletes d k -> sent_to k b d -> False.
Proof. intros (l & Hd & _) (l' & Hd' & _). by rewrite Hd in Hd'. Qed.

Lemma sent_to_fun d k b b' : sent_to k b d -> sent_to k b' d -> b = b'.
Proof. intros (l & _ & _ & Hd) (l' & _ & _ & Hd'). by pose proof (carries_fun _ _ _ Hd Hd') as [= ->]. Qed.

Section takings.
  Context (tasks : list task) (k : bytes).
  Hypothesis Hsend : sendable tasks.
  Hypothesis Hcalls : forall e c, made_by_one tasks e c -> takes_away k c \/ ~ changes c k.

  Lemma takes_built e c bl : made_by_one tasks e c -> takes_away k c -> build e c = ROk bl ->
    takes k (Call e (into_request bl) []).
  Proof using Hsend.
    intros Hm Ht Hb. destruct (Hsend _ _ Hm) as [He _]. destruct Ht as [->|(b & Hbk & ->)].
    - left. by apply delete_built.
    - right. exists b. split; [done|]. by apply rename_built.
  Qed.

  Lemma takings_only : only_taken k (map dispatches tasks).
  Proof using Hsend Hcalls.
    intros d [p Hd] Hw. destruct (call_at_tasks _ _ _ Hd) as (a & e & c & bl & _ & Hc & Hb & ->).
    assert (Hm : made_by_one tasks e c) by by eexists. destruct (Hsend _ _ Hm) as [He Hl].
    destruct (Hcalls _ _ Hm) as [Ht|Hno]; [by apply (takes_built e c)|].
    exfalso. apply Hno. by eapply may_write_changes.
  Qed.

  Lemma through_only b : only_by_taking k b tasks -> only_through k b (map dispatches tasks).
  Proof using Hsend.
    intros Ho d [p Hd] Hw. destruct (call_at_tasks _ _ _ Hd) as (a & e & c & bl & _ & Hc & Hb & ->).
    assert (Hm : made_by_one tasks e c) by by eexists. destruct (Hsend _ _ Hm) as [He Hl].
    apply (takes_built e c); [done| |done]. apply (Ho e); [done|]. by eapply may_write_changes.
  Qed.

  (** A dispatch that takes the key. *)
  Lemma take_dispatch p d : call_at (map dispatches tasks) p = Some d -> takes k d ->
    exists a e c bl, same_place tasks a p /\ task_call tasks a = Some (e, c) /\ build e c = ROk bl /\
      d = Call e (into_request bl) [] /\ takes_away k c /\ env_ok e /\ (sends c <= 255)%N.
  Proof using Hsend Hcalls.
    intros Hd Ht. destruct (call_at_tasks _ _ _ Hd) as (a & e & c & bl & Hp & Hc & Hb & ->).
    assert (Hm : made_by_one tasks e c) by by eexists. destruct (Hsend _ _ Hm) as [He Hl].
    destruct (Hcalls _ _ Hm) as [Hta|Hno]; [by exists a, e, c, bl|].
    exfalso. apply Hno. eapply may_write_changes; [done|done|exact Hb|].
    destruct Ht as [(l & Hq)|(b & _ & l & Hq)]; pose proof Hq as (Hcm & _); cbn [c_req] in Hcm, Hq;
      (split; [by rewrite Hcm|]); unfold names; left; by eapply asks_arg0.
  Qed.

  (** And which call it is. *)
  Lemma take_rename e c bl b : env_ok e -> takes_away k c -> build e c = ROk bl ->
    sent_to k b (Call e (into_request bl) []) -> c = KRename k b.
  Proof using.
    intros He [->|(b' & _ & ->)] Hb Hs.
    - exfalso. eapply deletes_not_rename; [by apply delete_built|exact Hs].
    - by rewrite (sent_to_fun _ _ _ _ Hs (rename_built _ _ _ _ He Hb)).
  Qed.
End takings.

Lemma c117 sh tasks k s0 v0 sched x :
  tasks_fit tasks s0 -> sendable tasks ->
  st_keys s0 !! k = Some v0 ->
  (forall e c, made_by_one tasks e c -> takes_away k c \/ ~ changes c k) ->
  at_work sh tasks s0 sched = Some x ->
  exists won : option (nat * nat),
  (unlocked sh x k -> st_keys x.2 !! k = match won with None => Some v0 | Some _ => None end) /\
  (forall w, won = Some w -> exists e c, task_call tasks w = Some (e, c) /\ takes_away k c) /\
  (forall a e c r, task_call tasks a = Some (e, c) -> takes_away k c -> got tasks x a r ->
     match refused c with
     | Some err => r = RErr err /\ won <> Some a
     | None =>
       if decide (won = Some a)
       then (lenN (returned_name c) < 2 ^ 32 - 16)%N -> r = ROk (RpBytes (returned_name c))
       else lost_to k tasks s0 (earlier sh tasks s0 sched) won a c r
     end) /\
  (forall b, b <> k -> only_by_taking k b tasks -> unlocked sh x b ->
     st_keys x.2 !! b = st_keys s0 !! b \/
     exists w e, won = Some w /\ task_call tasks w = Some (e, KRename k b) /\ st_keys x.2 !! b = Some v0) /\
  (forall w e b r, won = Some w -> task_call tasks w = Some (e, KRename k b) ->
     only_by_taking k b tasks -> got tasks x w r -> unlocked sh x b -> st_keys x.2 !! b = Some v0).
Proof.
  intros Hfit Hsend H0 Hcalls Hx.
  destruct (c115_locked sh k (map dispatches tasks) s0 v0 sched x) as (won & Hend & Hwon & Hret & Hoth & Hdst);
    [by apply fit_room|by apply envs_ok_tasks|by apply takings_only|done|exact Hx|].
  assert (Hback : exists won', match won', won with
    | Some a, Some b => same_place tasks a b /\ exists e c bl, task_call tasks a = Some (e, c) /\
        build e c = ROk bl /\ call_at (map dispatches tasks) b = Some (Call e (into_request bl) []) /\
        takes_away k c /\ env_ok e /\ (sends c <= 255)%N
    | None, None => True | _, _ => False end).
  { destruct won as [b|]; [|by exists None]. destruct (Hwon b eq_refl) as (d & Hd & Ht).
    destruct (take_dispatch tasks k Hsend Hcalls b d Hd Ht) as (a & e & c & bl & Hs & Hc & Hb & -> & Hta & He & Hl).
    exists (Some a). split; [done|]. by exists e, c, bl. }
  destruct Hback as [won' Hback]. exists won'. split_and!.
  - intros Hu. rewrite (Hend Hu). by destruct won, won'.
  - intros a ->. destruct won as [b|]; [|done]. destruct Hback as (_ & e & c & bl & Hc & _ & _ & Ht & _).
    by exists e, c.
  - intros a e c r Hc Ht Hg. pose proof (got_cases _ _ _ _ _ _ Hsend Hc Hg) as Hcs.
    assert (Hm : made_by_one tasks e c) by by eexists. destruct (Hsend _ _ Hm) as [He Hl].
    destruct (refused c) eqn:Hr.
    { split; [done|]. intros ->. destruct won as [b|]; [|done].
      destruct Hback as (_ & e' & c' & bl & Hc' & Hb & _). rewrite Hc in Hc'. injection Hc' as <- <-.
      by rewrite (build_refused _ _ _ He Hl Hb) in Hr. }
    destruct Hcs as (p & bl & q & Hp & Hb & Hd & Hq & ->).
    pose proof (takes_built tasks k Hsend e c bl Hm Ht Hb) as Htd.
    specialize (Hret p _ q Hd Htd Hq).
    assert (Hwa : won' = Some a <-> won = Some p).
    { destruct won' as [a'|], won as [b|]; try done. destruct Hback as [Hs _]. split; intros [= ->].
      - f_equal. by eapply same_place_fun.
      - f_equal. by eapply same_place_inj. }
    destruct (decide (won' = Some a)) as [Ea|Ea].
    + rewrite decide_True in Hret by (by apply Hwa). intros Hlen. cbn [c_env c_res] in *.
      assert (Hne : returned_name c <> []).
      { destruct Ht as [->|(b & _ & ->)]; cbn in Hr |- *; intros ->.
        - done.
        - by destruct (is_empty k). }
      destruct Ht as [->|(b & Hbk & ->)]; cbn [returned_name] in *.
      * destruct Hret as [[_ Hresp]|(b & Hs & _)].
        -- by eapply finish_name; [left| | |].
        -- exfalso. eapply deletes_not_rename; [by apply delete_built|exact Hs].
      * destruct Hret as [[Hdel _]|(b' & Hs & Hresp)].
        -- exfalso. eapply deletes_not_rename; [exact Hdel|by apply rename_built].
        -- rewrite (sent_to_fun _ _ _ _ Hs (rename_built _ _ _ _ He Hb)) in Hresp.
           by eapply finish_name; [right| | |].
    + rewrite decide_False in Hret by (by intros ?%Hwa). cbn [c_env c_res] in *.
      destruct Hret as [(Hdel & -> & w & -> & Hnb)|(b & Hs & Hret)].
      * left. destruct won' as [a'|]; [|done]. destruct Hback as [Hs' _].
        destruct Ht as [->|(b & Hbk & ->)].
        -- split; [done|]. exists a'. split; [done|]. intros Hea. apply Hnb. by eapply earlier_before.
        -- exfalso. eapply deletes_not_rename; [exact Hdel|by apply rename_built].
      * pose proof (take_rename k e c bl b He Ht Hb Hs) as ->.
        destruct Hret as [(-> & w & -> & Hnb)|(-> & Hwhy)].
        -- left. destruct won' as [a'|]; [|done]. destruct Hback as [Hs' _].
           split; [done|]. exists a'. split; [done|]. intros Hea. apply Hnb. by eapply earlier_before.
        -- right. exists b. split; [done|]. split; [done|]. intros Ho.
           destruct (Hwhy (through_only tasks k Hsend b Ho)) as [Hi|(w & d & -> & Hd' & Hs' & Hnb)]; [by left|right].
           destruct won' as [a'|]; [|done]. destruct Hback as (Hpl & e' & c' & bl' & Hc' & Hb' & Hd'' & Ht' & He' & Hl').
           rewrite Hd'' in Hd'. injection Hd' as <-.
           pose proof (take_rename k e' c' bl' b He' Ht' Hb' Hs') as ->.
           exists a', e'. split_and!; [done|done|]. intros Hea. apply Hnb. by eapply earlier_before.
  - intros b Hbk Ho Hu. destruct (Hoth b Hbk (through_only tasks k Hsend b Ho) Hu) as [|(w & d & -> & Hd & Hs & Hv)]; [by left|right].
    destruct won' as [a'|]; [|done]. destruct Hback as (Hpl & e' & c' & bl' & Hc' & Hb' & Hd'' & Ht' & He' & Hl').
    rewrite Hd'' in Hd. injection Hd as <-. pose proof (take_rename k e' c' bl' b He' Ht' Hb' Hs) as ->.
    by exists a', e'.
  - intros a e b r -> Hc Ho Hg Hu. destruct won as [p|]; [|done].
    destruct Hback as (Hpl & e' & c' & bl' & Hc' & Hb' & Hd & Ht' & He' & Hl').
    rewrite Hc in Hc'. injection Hc' as <- <-.
    assert (Hbk : b <> k) by (destruct Ht' as [|(b' & ? & [= ->])]; done).
    destruct (got_dispatch _ _ _ _ _ Hpl Hg) as [q Hq].
    eapply (Hdst p); [done|exact Hd|done|by apply rename_built|by eapply through_only|exact Hq|done].
Qed.
