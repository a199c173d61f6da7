(** Appends by tasks that share one memory client: the proof of C100. *)
From Verif Require Import Locks LockSpec LockScripts LockScriptSpec.
From Verif Require Import Bytes BytesFacts Utf8 Float64 Value CommandId
  Request Response RespContext Metrics Prog Commands EngineSpec WireSpec RequestSpec
  HistorySpec EngineProps ConcSpec ConcProps Scripts LinSpec LinFacts KeyLinSpec KeyLin KeyLinFacts
  LockScriptFacts Client ClientSpec ClientFacts ClientProps MemTasks MemTaskSpec MemTaskFacts
  MemAppendSpec.
From stdpp Require Import gmap list.
From Coq Require Import NArith ZArith Lia ZifyBool ZifyNat ZifyN.

Lemma results_refused h rs j e c err r :
  h !! j = Some (e, c) -> build e c = RErr err -> results h rs !! j = Some r -> r = RErr err.
Proof.
  revert rs j. induction h as [|[e' c'] h IH]; intros rs j; [done|]. destruct j as [|j]; cbn.
  - intros [= -> ->] ->. cbn. by intros [= <-].
  - intros Hj Hb. destruct (build e' c'); [|by apply IH..]. destruct rs; [done|]. by apply IH.
Qed.

Lemma joined_append e v w : appendable v -> kind w = kind v -> value_wf w ->
  joined v w = append_to v (value_args e w).
Proof.
  destruct v, w; cbn; try done; intros _ _ Hwf.
  - by rewrite app_nil_r.
  - rewrite app_nil_r. unfold value_wf in Hwf. cbn in Hwf.
    by destruct (utf8_valid _).
Qed.

Lemma joined_kind v w u : joined v w = Some u -> kind u = kind v.
Proof. by destruct v, w; cbn; try done; intros [= <-]. Qed.

Lemma joined_appendable v w u : joined v w = Some u -> appendable u.
Proof. by destruct v, w; cbn; try done; intros [= <-]. Qed.

(** [joined_all] is one append of all the items. *)
Lemma joined_all_append v vs ls : appendable v ->
  Forall2 (fun w l => kind w = kind v /\ value_wf w /\ exists e, l = value_args e w) vs ls ->
  joined_all v vs = append_to v (concat ls).
Proof.
  intros Ha HF. assert (H0 : append_to v [] = Some v).
  { destruct v; try done; cbn; by rewrite app_nil_r. }
  revert v Ha HF H0. revert ls. induction vs as [|w vs IH]; intros ls v Ha HF H0.
  - apply Forall2_nil_inv_l in HF as ->. done.
  - apply Forall2_cons_inv_l in HF as (l & ls' & (Hk & Hwf & e & ->) & HF & ->). cbn [joined_all concat].
    rewrite (joined_append e v w) by done.
    destruct (append_to v (value_args e w)) as [u|] eqn:Hu.
    + rewrite (append_to_app _ _ _ _ Hu). apply IH.
      * apply (joined_appendable v w). by rewrite (joined_append e).
      * eapply Forall2_impl; [exact HF|]. cbn. intros w' l (-> & ? & ?).
        rewrite (append_to_kind _ _ _ Hu). done.
      * destruct u; try done; cbn; rewrite ?app_nil_r; try done;
          apply append_to_kind in Hu; by destruct v.
    + destruct v, w; try done. cbn in Hu |- *. by destruct (utf8_valid _).
Qed.

Lemma carries_fun req l l' : carries req l -> carries req l' -> l = l'.
Proof.
  intros [_ H1] [_ H2]. apply list_eq. intros i. specialize (H1 (N.of_nat i)). specialize (H2 (N.of_nat i)).
  rewrite Nnat.Nat2N.id in *. congruence.
Qed.

Lemma append_built e c k v b : env_ok e -> (sends c <= 255)%N -> appends_value c k v ->
  build e c = ROk b -> appends (Call e (into_request b) []) k (kind v) (value_args e v).
Proof.
  intros He Hs Hc Hb. pose proof (build_asks e c b He Hs Hb) as Ha. by destruct Hc as [->| ->].
Qed.

Lemma finish_append e c k v w r : appends_value c k v -> sound w -> kind w = kind v ->
  responds e [] w r -> finish e c r = ROk (RpValue w).
Proof.
  intros Hc Hv Hk Hr. pose proof Hv as (Hwf & Hl & _).
  destruct Hr as [(msg & -> & Hf)|(_ & Hn & _)]; [|done].
  unfold finish, received. cbn [app] in *. rewrite (Hf Hl (debug e) Hwf (sound_decodable _ _ Hv)).
  destruct Hc as [->| ->]; cbn; [done|]. unfold of_kind. by rewrite decide_True.
Qed.

Lemma appends_changes c k v : appends_value c k v -> changes c k.
Proof. intros [->| ->]; cbn; by apply elem_of_list_singleton. Qed.

Lemma c100 sh tasks k s0 v0 sched x :
  tasks_fit tasks s0 -> sendable tasks -> ordinary k -> k <> [] ->
  st_keys s0 !! k = Some v0 -> appendable v0 ->
  (forall e c, made_by_one tasks e c ->
     (exists v, appends_value c k v /\ kind v = kind v0 /\ value_wf v) \/ ~ changes c k) ->
  at_work sh tasks s0 sched = Some x ->
  exists (out : list (nat * nat)) (vs : list value), NoDup out /\
  Forall2 (fun a v => exists e c, task_call tasks a = Some (e, c) /\ appends_value c k v /\
    refused c = None) out vs /\
  (forall a e c v r, task_call tasks a = Some (e, c) -> appends_value c k v -> got tasks x a r ->
     match refused c with
     | Some err => r = RErr err
     | None => exists i w, out !! i = Some a /\ joined_all v0 (take (S i) vs) = Some w /\
         (sound w -> r = ROk (RpValue w))
     end) /\
  (forall i j a b, out !! i = Some a -> out !! j = Some b ->
     earlier sh tasks s0 sched a b -> i < j) /\
  exists w, joined_all v0 vs = Some w /\ (unlocked sh x k -> st_keys x.2 !! k = Some w).
Proof.
  intros Hfit Hsend Hk Hne H0 Hap Hcalls Hx.
  destruct (c87_locked sh k (map dispatches tasks) s0 (kind v0) v0 sched x)
    as (out & ls & Hnd & HF & Hret & Hord & w & Hw & Hend); try done.
  - by apply fit_room.
  - by destruct v0; try done; eexists.
  - intros d [b Hd]. destruct (call_at_tasks _ _ _ Hd) as (a & e & c & bl & _ & Hc & Hb & ->).
    assert (Hm : made_by_one tasks e c) by by eexists. destruct (Hsend _ _ Hm) as [He Hl].
    destruct (Hcalls _ _ Hm) as [(v & Hv & Hkd & Hwf)|Hno].
    + left. split; [done|]. exists (value_args e v). rewrite <-Hkd. split; [by eapply append_built|].
      rewrite <-joined_append by done. by destruct v0, v; try done; eexists.
    + right. intros Hw'. apply Hno. by eapply may_write_changes.
  - assert (Hback : exists out' vs, Forall2 (same_place tasks) out' out /\
      Forall2 (fun a v => exists e c, task_call tasks a = Some (e, c) /\ appends_value c k v /\
        refused c = None) out' vs /\
      Forall2 (fun v l => kind v = kind v0 /\ value_wf v /\ exists e, l = value_args e v) vs ls).
    { clear Hnd Hret Hord Hw. induction HF as [|b l out ls (d & Hd & Hq) HF IH]; [by exists [], []|].
      destruct IH as (out' & vs & I1 & I2 & I3).
      destruct (call_at_tasks _ _ _ Hd) as (a & e & c & bl & Hs & Hc & Hb & ->).
      assert (Hm : made_by_one tasks e c) by by eexists. destruct (Hsend _ _ Hm) as [He Hl].
      destruct (Hcalls _ _ Hm) as [(v & Hv & Hkd & Hwf)|Hno].
      - exists (a :: out'), (v :: vs). split_and!; constructor; try done.
        + exists e, c. split_and!; [done..|]. destruct (refused c) as [err|] eqn:Hr; [|done].
          rewrite (makes_refused e c err He Hl Hr) in Hb. done.
        + split_and!; [done..|]. exists e. pose proof (append_built _ _ _ _ _ He Hl Hv Hb) as Hq'.
          destruct Hq as (_ & _ & Hq), Hq' as (_ & _ & Hq').
          pose proof (carries_fun _ _ _ Hq Hq') as E. by injection E.
      - exfalso. apply Hno. eapply may_write_changes; [done|done|exact Hb|].
        pose proof Hq as (Hcm & _). cbn [c_req] in Hcm, Hq. split; [by rewrite Hcm|].
        unfold names. left. by eapply asks_arg0. }
    destruct Hback as (out' & vs & HS & HV & HL).
    exists out', vs. split_and!.
    + by eapply places_nodup.
    + done.
    + intros a e c v r Hc Hv Hg.
      assert (Hm : made_by_one tasks e c) by by eexists. destruct (Hsend _ _ Hm) as [He Hl].
      destruct (refused c) as [err|] eqn:Hr.
      { destruct Hg as (h & cl & Hh & _ & Hg). unfold task_call in Hc. rewrite Hh in Hc. cbn in Hc.
        eapply results_refused; [exact Hc| |exact Hg]. by apply makes_refused. }
      destruct (makes_built e c He Hl Hr) as (bl & Hbd & _).
      destruct (tasks_call_at _ _ _ _ _ Hc Hbd) as (b & Hs & Hd).
      destruct (got_returned _ _ _ _ _ _ _ Hs Hc Hg) as (q & Hq & ->).
      assert (Hkv : kind v = kind v0).
      { destruct (Hcalls _ _ Hm) as [(v' & Hv' & Hkd & _)|Hno].
        - by destruct Hv as [->| ->], Hv' as [E|E]; inversion E; subst.
        - exfalso. by apply Hno, (appends_changes _ _ v). }
      pose proof (append_built _ _ _ _ _ He Hl Hv Hbd) as Hap'. rewrite Hkv in Hap'.
      destruct (Hret b _ _ q Hd Hap' Hq) as (i & u & Hi & Hu & Hresp).
      destruct (Forall2_lookup_r _ _ _ _ _ HS Hi) as (a' & Ha' & Hs').
      pose proof (same_place_inj _ _ _ _ Hs Hs') as <-. exists i, u. split; [done|]. split.
      { rewrite (joined_all_append _ _ (take (S i) ls)); [done|done|]. by apply Forall2_take. }
      intros Hsu. eapply finish_append; [exact Hv|done| |exact Hresp].
      by rewrite (append_to_kind _ _ _ Hu).
    + intros i j a a' Hi Hj He.
      destruct (Forall2_lookup_l _ _ _ _ _ HS Hi) as (b & Hb & Hs).
      destruct (Forall2_lookup_l _ _ _ _ _ HS Hj) as (b' & Hb' & Hs').
      apply (Hord _ _ _ _ Hb Hb'). by eapply earlier_before.
    + exists w. split; [|done]. by rewrite (joined_all_append v0 vs ls Hap HL).
Qed.
