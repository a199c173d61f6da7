(** Where the data that tasks read through a shared memory client comes from: proofs of C112. *)
From Verif Require Import Locks LockSpec LockScripts LockScriptSpec.
From Verif Require Import Bytes BytesFacts Utf8 Float64 Value CommandId Request Response RespContext WireSpec RespProps RespLimits ResponseFacts
  RequestSpec EngineSpec Metrics Prog Commands HistorySpec ConcSpec Scripts LinSpec KeyLinSpec Client ClientSpec ClientFacts ClientProps
  MemTasks MemTaskSpec MemTaskFacts MemAppendSpec MemAppend MemRaceSpec OriginSpec OriginFacts MemOriginSpec.
From stdpp Require Import gmap list.
From Coq Require Import NArith ZArith Lia.

Lemma pairs_words (l : list (bytes * bytes)) w : w ∈ flatten_pairs l -> exists p, p ∈ l /\ (w = p.1 \/ w = p.2).
Proof.
  induction l as [|[a b] l IH]; cbn; [by rewrite elem_of_nil|].
  rewrite !elem_of_cons. intros [->|[->|H]].
  - exists (a, b). cbn. rewrite elem_of_cons. auto.
  - exists (a, b). cbn. rewrite elem_of_cons. auto.
  - destruct (IH H) as (p & Hp & ?). exists p. rewrite elem_of_cons. auto.
Qed.

(** What is sent of a value that is no boolean and no number is in it. *)
Lemma sent_words e v w : env_ok e -> w ∈ value_args e v ->
  match kind v with KTBoolean | KTFloat | KTInteger => True | _ => in_value v w end.
Proof.
  intros [Hm Hs]. destruct v as [x|b|n|z|l|m|s|b]; cbn; try done.
  - by rewrite elem_of_list_singleton.
  - intros (p & Hp & Hw)%pairs_words. rewrite Hm in Hp. destruct p as [k x].
    apply elem_of_map_to_list in Hp. eauto.
  - rewrite Hs. by rewrite elem_of_elements.
  - by rewrite elem_of_list_singleton.
Qed.

Lemma issued_tasks tasks d : issued (map dispatches tasks) d ->
  exists e c bl, made_by_one tasks e c /\ build e c = ROk bl /\ d = Call e (into_request bl) [].
Proof.
  intros [b Hb]. destruct (call_at_tasks _ _ _ Hb) as (a & e & c & bl & _ & Hc & Hbl & ->).
  exists e, c, bl. split; [by exists a|done].
Qed.

Lemma gives_tasks tasks k w : sendable tasks -> gives (map dispatches tasks) k w -> task_gives tasks k w.
Proof.
  intros Hsend (d & i & Hd & Hcmd & Hsc & Hk & Hi & Hw).
  destruct (issued_tasks _ _ Hd) as (e & c & bl & Hm & Hb & ->). destruct (Hsend _ _ Hm) as [He Hl].
  cbn [c_req] in *. pose proof (build_asks e c bl He Hl Hb) as Ha. revert Ha.
  assert (Hgo : forall v, sets_value c k v \/ appends_value c k v -> r_key_type (into_request bl) = Some (kind v) ->
    carries (into_request bl) (k :: value_args e v) -> task_gives tasks k w).
  { intros v Hv Ht Hc. exists e, c, v. split; [done|]. split; [done|].
    rewrite (carried_arg _ _ _ Hc) in Hw. destruct (N.to_nat i) as [|n] eqn:En; [lia|]. cbn in Hw.
    apply elem_of_list_lookup_2 in Hw. pose proof (sent_words _ _ _ He Hw) as Hin.
    unfold about_scalar in Hsc. rewrite Ht in Hsc. destruct (kind v); try done; exfalso; apply Hsc; auto. }
  unfold sets_value, appends_value in Hgo.
  destruct c; cbn [request_of]; intros (Hc & Ht & Hr); rewrite Hc in Hcmd; try (by destruct Hcmd);
    rewrite (carried_arg _ _ _ Hr) in Hk; injection Hk as ->; eapply Hgo; eauto.
Qed.

Lemma renames_tasks tasks a b : sendable tasks -> renames (map dispatches tasks) a b ->
  exists e, made_by_one tasks e (KRename a b).
Proof.
  intros Hsend (d & Hd & Hcmd & Ha & Hb').
  destruct (issued_tasks _ _ Hd) as (e & c & bl & Hm & Hb & ->). destruct (Hsend _ _ Hm) as [He Hl].
  cbn [c_req] in *. pose proof (build_asks e c bl He Hl Hb) as Hask. revert Hask.
  destruct c; cbn [request_of]; intros (Hc & _ & Hr); rewrite Hc in Hcmd; try done.
  rewrite (carried_arg _ _ _ Hr) in Ha. rewrite (carried_arg _ _ _ Hr) in Hb'. injection Ha as ->. injection Hb' as ->. eauto.
Qed.

Lemma origin_tasks tasks s0 k w : sendable tasks -> origin (map dispatches tasks) s0 k w -> task_origin tasks s0 k w.
Proof.
  intros Hsend. induction 1 as [k v w Hv Hw|k w Hg|a b w Hr _ IH].
  - by eapply task_origin_stored.
  - apply task_origin_given. by apply gives_tasks.
  - destruct (renames_tasks _ _ _ Hsend Hr) as [e He]. by eapply task_origin_renamed.
Qed.

Lemma answer_tasks tasks s0 e c bl w : sendable tasks -> made_by_one tasks e c -> build e c = ROk bl ->
  may_answer (map dispatches tasks) s0 (Call e (into_request bl) []) w -> may_return tasks s0 c w.
Proof.
  intros Hsend Hm Hb. destruct (Hsend _ _ Hm) as [He Hl]. pose proof (build_asks e c bl He Hl Hb) as Ha. revert Ha.
  unfold may_answer. cbn [c_req].
  destruct c; cbn [request_of may_return]; intros (Hc & _ & Hr); rewrite Hc; try done.
  all: try (intros (k' & Hk & Ho); rewrite (carried_arg _ _ _ Hr) in Hk; injection Hk as <-; by apply origin_tasks).
  all: intros [i Hi]; rewrite (carried_arg _ _ _ Hr) in Hi; apply elem_of_list_lookup_2 in Hi;
    rewrite ?elem_of_cons, elem_of_nil in Hi; tauto.
Qed.

Lemma opened_reply c v p : c <> KStats -> opened (@or_panic) c v = ROk p -> reply_of p v.
Proof.
  intros Hc. destruct c; cbn; try done; destruct v; cbn; unfold of_kind; try done; try (by intros [= <-]);
    repeat (case_decide || destruct (a_key_type _); cbn; try done; try (by intros [= <-])).
Qed.

(** What is read is what was sent, if that can be sent. *)
Lemma read_sound e v u : env_ok e -> sound v -> read_from e v u -> u = v.
Proof.
  intros He Hs. pose proof Hs as (Hwf & Hl & _). unfold read_from.
  rewrite <-(app_nil_r (resp_frame e (RValue v))), decode_frame; [|done..|by apply sound_decodable].
  by intros [= ->].
Qed.

Lemma c112_tasks sh tasks s0 sched x :
  sendable tasks -> at_work sh tasks s0 sched = Some x ->
  (forall k v, unlocked sh x k -> st_keys x.2 !! k = Some v ->
     made_of (task_origin tasks s0 k) v /\
     (is_Some (st_keys s0 !! k) \/ exists e c, made_by_one tasks e c /\ changes c k)) /\
  (forall a e c p, task_call tasks a = Some (e, c) -> c <> KStats -> got tasks x a (ROk p) ->
     exists v u, made_of (may_return tasks s0 c) v /\ read_from e v u /\ (sound v -> u = v) /\ reply_of p u).
Proof.
  intros Hsend Hx. destruct (c112_locked _ _ _ _ _ Hx) as [Hst Hans]. split.
  - intros k v Hu Hv. destruct (Hst k v Hu Hv) as [Ho Hk]. split.
    + eapply made_of_weaken; [|exact Ho]. intros w Hw. by apply origin_tasks.
    + destruct Hk as [[v0 Hv0]|(d & Hd & Hmw)]; [left; by eexists|right].
      destruct (issued_tasks _ _ Hd) as (e & c & bl & Hm & Hb & ->). destruct (Hsend _ _ Hm) as [He Hl].
      exists e, c. split; [done|]. by eapply may_write_changes.
  - intros a e c p Hc Hns Hg. assert (Hm : made_by_one tasks e c) by by exists a.
    destruct (Hsend _ _ Hm) as [He Hl].
    destruct (refused c) as [err|] eqn:Hr.
    + pose proof (makes_refused e c err He Hl Hr) as Hb. unfold got, task_call in *. destruct Hg as (h & cl & Hh & _ & Hp).
      rewrite Hh in Hc. by pose proof (results_refused _ _ _ _ _ _ _ Hc Hb Hp).
    + destruct (makes_built e c He Hl Hr) as (bl & Hb & _).
      destruct (tasks_call_at _ _ _ _ _ Hc Hb) as (b & Hs & Hd).
      destruct (got_returned _ _ _ _ _ _ _ Hs Hc Hg) as (q & Hq & Hf).
      assert (Hcmd : r_command (into_request bl) <> CStats).
      { pose proof (build_asks e c bl He Hl Hb) as Ha. revert Ha. by destruct c; cbn [request_of]; intros [-> _]. }
      pose proof (Hans b _ q Hd He Hcmd Hq) as Ho. unfold finish, received in Hf. destruct q as [out|err out|]; try done.
      destruct Ho as (v & Hv & ->). cbn [c_res c_env app] in *.
      destruct (resp_feed (debug e) resp_ctx_new (resp_frame e (RValue v))).2 as [[err|err|u]|n|err| |] eqn:E; try done.
      exists v, u. split_and!.
      * eapply made_of_weaken; [|exact Hv]. intros w Hw. by eapply answer_tasks.
      * exact E.
      * intros Hsv. by eapply read_sound.
      * symmetry in Hf. cbn in Hf. by eapply opened_reply.
Qed.
