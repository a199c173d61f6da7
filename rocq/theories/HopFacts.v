(** The lemmas behind C80 - C82. *)
From Verif Require Import Bytes BytesFacts Value Metrics Prog Commands Session PubSub Request
  EngineSpec HistorySpec EngineFacts HistoryFacts Hop HopSpec.
From stdpp Require Import gmap list.
From Coq Require Import NArith Lia.
From Coq Require Import ZifyBool ZifyNat ZifyN.

Lemma hop_run_app h a b :
  hop_run h (a ++ b) =
  let '(h1, r1) := hop_run h a in let '(h2, r2) := hop_run h1 b in (h2, r1 ++ r2).
Proof.
  revert h. induction a as [|c a IH]; intros h; cbn.
  - by destruct (hop_run h b).
  - destruct (hop_do h c) as [h1 r]. rewrite IH. destruct (hop_run h1 a) as [h2 r1].
    by destruct (hop_run h2 b).
Qed.

(** ** The configuration *)

Lemma hop_do_config h c : h_config (hop_do h c).1 = h_config h.
Proof.
  destruct c; cbn; try done.
  - by destruct (dispatch _ _ _ _).
  - by destruct (session_add _ _ _ _) as [[? ?] ?].
  - by destruct (ps_subscribe _ _ _).
  - by destruct (ps_unsubscribe _ _ _).
  - by destruct (ps_remove_session _ _).
Qed.

Lemma hop_run_config h cs : h_config (hop_run h cs).1 = h_config h.
Proof.
  revert h. induction cs as [|c cs IH]; intros h; cbn; [done|].
  pose proof (hop_do_config h c) as Hc. destruct (hop_do h c) as [h1 r]. specialize (IH h1).
  destruct (hop_run h1 cs). cbn in *. congruence.
Qed.

Lemma build_config l c :
  fold_left builder_set l c =
  Config
    (default (pubsub_enabled c)
      (last (omap (fun s => match s with SetPubsub b => Some b | _ => None end) l)))
    (default (sessions_active_max c)
      (last (omap (fun s => match s with SetSessionsMax n => Some n | _ => None end) l))).
Proof.
  induction l as [|s l IH] using rev_ind; [by destruct c|].
  rewrite fold_left_app, IH. cbn. rewrite !omap_app.
  destruct s; cbn; rewrite ?app_nil_r, ?last_snoc; done.
Qed.

(** The configuration is what was set, and stays that. *)
Lemma c80_kept l cs :
  call_result l cs HConfig = HRConfig (Config (chosen_pubsub l) (chosen_max l)).
Proof.
  unfold call_result, hop_after. cbn. rewrite hop_run_config. unfold hop_build. cbn.
  by rewrite build_config.
Qed.

Definition but_config (h : hop) : store * sessions * pubsub := (h_store h, h_sessions h, h_pubsub h).

Lemma hop_do_any_config h1 h2 c : but_config h1 = but_config h2 -> c <> HConfig ->
  but_config (hop_do h1 c).1 = but_config (hop_do h2 c).1 /\ (hop_do h1 c).2 = (hop_do h2 c).2.
Proof.
  destruct h1 as [c1 s1 m1 p1], h2 as [c2 s2 m2 p2]. unfold but_config. cbn. intros [= -> -> ->] Hc.
  destruct c; cbn; try done.
  - by destruct (dispatch _ _ _ _).
  - by destruct (session_add _ _ _ _) as [[? ?] ?].
  - by destruct (ps_subscribe _ _ _).
  - by destruct (ps_unsubscribe _ _ _).
  - by destruct (ps_remove_session _ _).
Qed.

(** And nothing depends on it. *)
Lemma c80_no_effect l1 l2 cs :
  HConfig ∉ cs -> hop_results l1 cs = hop_results l2 cs.
Proof.
  unfold hop_results. assert (H0 : but_config (hop_build l1) = but_config (hop_build l2)) by done.
  revert H0. generalize (hop_build l1) as h1, (hop_build l2) as h2.
  induction cs as [|c cs IH]; intros h1 h2 Hh Hn; [done|].
  apply not_elem_of_cons in Hn as [Hc Hn].
  destruct (hop_do_any_config h1 h2 c Hh ltac:(done)) as [H1 H2]. cbn.
  destruct (hop_do h1 c) as [h1' r1], (hop_do h2 c) as [h2' r2]. cbn in *. subst r2.
  specialize (IH _ _ H1 Hn). destruct (hop_run h1' cs), (hop_run h2' cs). cbn in *. by subst.
Qed.

(** ** Subscriptions *)

Lemma other_pubsub h c : about_subscriptions c = false -> h_pubsub (hop_do h c).1 = h_pubsub h.
Proof.
  destruct c; cbn; try done; intros _.
  - by destruct (dispatch _ _ _ _).
  - by destruct (session_add _ _ _ _) as [[? ?] ?].
Qed.

Lemma pubsub_alone h1 h2 c : about_subscriptions c = true -> h_pubsub h1 = h_pubsub h2 ->
  h_pubsub (hop_do h1 c).1 = h_pubsub (hop_do h2 c).1 /\ (hop_do h1 c).2 = (hop_do h2 c).2.
Proof.
  destruct c; cbn; try done; intros _ ->; [done|..].
  - by destruct (ps_subscribe _ _ _).
  - by destruct (ps_unsubscribe _ _ _).
  - by destruct (ps_remove_session _ _).
Qed.

Lemma pubsub_only cs : forall h1 h2, h_pubsub h1 = h_pubsub h2 ->
  h_pubsub (hop_run h1 cs).1 = h_pubsub (hop_run h2 (List.filter about_subscriptions cs)).1 /\
  results_of about_subscriptions cs (hop_run h1 cs).2 =
  (hop_run h2 (List.filter about_subscriptions cs)).2.
Proof.
  induction cs as [|c cs IH]; intros h1 h2 Hh; [done|]. cbn.
  destruct (about_subscriptions c) eqn:Ec; cbn.
  - destruct (pubsub_alone h1 h2 c Ec Hh) as [H1 H2].
    destruct (hop_do h1 c) as [h1' r1], (hop_do h2 c) as [h2' r2]. cbn in *. subst r2.
    destruct (IH _ _ H1) as [H3 H4]. destruct (hop_run h1' cs), (hop_run h2' _). cbn in *.
    split; [done|]. by rewrite H4.
  - pose proof (other_pubsub h1 c Ec) as H1. destruct (hop_do h1 c) as [h1' r1]. cbn in *.
    destruct (IH h1' h2) as [H3 H4]; [congruence|]. destruct (hop_run h1' cs). cbn in *. done.
Qed.

(** Subscriptions see nothing of what is done to keys and sessions. *)
Lemma c81_blind l1 l2 cs1 cs2 :
  List.filter about_subscriptions cs1 = List.filter about_subscriptions cs2 ->
  results_of about_subscriptions cs1 (hop_results l1 cs1) =
  results_of about_subscriptions cs2 (hop_results l2 cs2) /\
  h_pubsub (hop_after l1 cs1) = h_pubsub (hop_after l2 cs2).
Proof.
  intros Hf. unfold hop_results, hop_after.
  destruct (pubsub_only cs1 (hop_build l1) (hop_build l1) eq_refl) as [-> ->].
  destruct (pubsub_only cs2 (hop_build l2) (hop_build l1) eq_refl) as [-> ->]. by rewrite Hf.
Qed.

Definition no_pubsub (h : hop) : config * store * sessions := (h_config h, h_store h, h_sessions h).

Lemma pubsub_touches h c : about_subscriptions c = true -> no_pubsub (hop_do h c).1 = no_pubsub h.
Proof.
  destruct c; cbn; try done; intros _.
  - by destruct (ps_subscribe _ _ _).
  - by destruct (ps_unsubscribe _ _ _).
  - by destruct (ps_remove_session _ _).
Qed.

Lemma other_alone h1 h2 c : about_subscriptions c = false -> no_pubsub h1 = no_pubsub h2 ->
  no_pubsub (hop_do h1 c).1 = no_pubsub (hop_do h2 c).1 /\ (hop_do h1 c).2 = (hop_do h2 c).2.
Proof.
  destruct h1 as [c1 s1 m1 p1], h2 as [c2 s2 m2 p2]. unfold no_pubsub.
  cbn [h_config h_store h_sessions]. intros Hc [= -> -> ->].
  destruct c; cbn in *; try done.
  - by destruct (dispatch _ _ _ _).
  - by destruct (session_add _ _ _ _) as [[? ?] ?].
Qed.

Lemma other_only cs : forall h1 h2, no_pubsub h1 = no_pubsub h2 ->
  no_pubsub (hop_run h1 cs).1 =
  no_pubsub (hop_run h2 (List.filter (fun c => negb (about_subscriptions c)) cs)).1 /\
  results_of (fun c => negb (about_subscriptions c)) cs (hop_run h1 cs).2 =
  (hop_run h2 (List.filter (fun c => negb (about_subscriptions c)) cs)).2.
Proof.
  induction cs as [|c cs IH]; intros h1 h2 Hh; [done|]. cbn.
  destruct (about_subscriptions c) eqn:Ec; cbn.
  - pose proof (pubsub_touches h1 c Ec) as H1. destruct (hop_do h1 c) as [h1' r1]. cbn in *.
    destruct (IH h1' h2) as [H3 H4]; [congruence|]. destruct (hop_run h1' cs). cbn in *. done.
  - destruct (other_alone h1 h2 c Ec Hh) as [H1 H2].
    destruct (hop_do h1 c) as [h1' r1], (hop_do h2 c) as [h2' r2]. cbn in *. subst r2.
    destruct (IH _ _ H1) as [H3 H4]. destruct (hop_run h1' cs), (hop_run h2' _). cbn in *.
    split; [done|]. by rewrite H4.
Qed.

(** And the other calls nothing of subscriptions. *)
Lemma c81_silent l cs :
  let rest := List.filter (fun c => negb (about_subscriptions c)) cs in
  results_of (fun c => negb (about_subscriptions c)) cs (hop_results l cs) = hop_results l rest.
Proof. apply other_only. done. Qed.

(** ** The metrics *)

Lemma tally_cons m r rs :
  tally_of m (r :: rs) = ((if counts m r then 1 else 0) + tally_of m rs)%N.
Proof. unfold tally_of. cbn. destruct (counts m r); [by rewrite lenN_cons|done]. Qed.

Lemma hop_do_counts h c ok err ses :
  counts_are (h_store h) ok err ses -> (ok + err + ses < 2 ^ 63)%N ->
  let '(h', r) := hop_do h c in
  counts_are (h_store h') (ok + if counts MCommandsSuccessful r then 1 else 0)%N
    (err + if counts MCommandsErrored r then 1 else 0)%N
    (ses + if counts MSessionsStarted r then 1 else 0)%N.
Proof.
  intros Hc Hb. destruct c; cbn; rewrite ?N.add_0_r; try done.
  - pose proof (counts_dispatch e (h_store h) req res _ _ _ Hc Hb) as Hd. cbn zeta in Hd.
    destruct (dispatch _ _ _ _) as [s r]. cbn in *.
    destruct r; cbn in *; by rewrite ?N.add_0_r in *.
  - destruct (h_store h) as [ks cs]. unfold session_add. cbn [st_counters st_keys].
    destruct (sm_live (h_sessions h) !! sm_next (h_sessions h)).
    + cbn. by rewrite !N.add_0_r.
    + destruct Hc as (H1 & H2 & H3 & H4). pose proof (counter_is_count _ _ _ H3).
      pose proof (count_inc (Env dbg map_to_list elements) (Store ks cs) MSessionsStarted) as Hi.
      cbn in Hi. rewrite Hi by (unfold u64_mod; lia). cbn. split_and!.
      * by apply (counter_bump (Store ks cs)).
      * by apply (counter_bump (Store ks cs)).
      * by apply (counter_bump (Store ks cs)).
      * cbn. by rewrite lookup_insert_ne.
  - by destruct (ps_subscribe _ _ _); cbn; rewrite !N.add_0_r.
  - by destruct (ps_unsubscribe _ _ _); cbn; rewrite !N.add_0_r.
  - by destruct (ps_remove_session _ _); cbn; rewrite !N.add_0_r.
Qed.

Lemma hop_run_counts cs : forall h ok err ses,
  counts_are (h_store h) ok err ses -> (ok + err + ses + lenN cs < 2 ^ 63)%N ->
  let '(h', rs) := hop_run h cs in
  counts_are (h_store h') (ok + tally_of MCommandsSuccessful rs) (err + tally_of MCommandsErrored rs)
    (ses + tally_of MSessionsStarted rs).
Proof.
  induction cs as [|c cs IH]; intros h ok err ses Hc Hb.
  { cbn. unfold tally_of. cbn. by rewrite !N.add_0_r. }
  rewrite lenN_cons in Hb. cbn [hop_run].
  pose proof (hop_do_counts h c ok err ses Hc ltac:(lia)) as Hd.
  destruct (hop_do h c) as [h1 r]. specialize (IH h1 _ _ _ Hd).
  destruct (hop_run h1 cs) as [h2 rs]. rewrite !tally_cons, !N.add_assoc. apply IH.
  assert (Hone : ((if counts MCommandsSuccessful r then 1 else 0) +
     (if counts MCommandsErrored r then 1 else 0) +
     (if counts MSessionsStarted r then 1 else 0) <= 1)%N)
    by (destruct r as [[]| | | | | |[]|]; cbn; lia).
  revert Hone Hb. clear.
  destruct (counts MCommandsSuccessful r), (counts MCommandsErrored r), (counts MSessionsStarted r); lia.
Qed.

(** What a reader of the metrics sees, among all other calls. *)
Lemma c82_counters l cs m :
  (lenN cs < 2 ^ 63)%N ->
  let n := tally_of m (hop_results l cs) in
  call_result l cs (HCounter m) = HRCounter (if (n =? 0)%N then None else Some n).
Proof.
  intros Hb. pose proof (hop_run_counts cs (hop_build l) 0 0 0) as H.
  unfold call_result, hop_after, hop_results. destruct (hop_run (hop_build l) cs) as [h rs].
  rewrite !N.add_0_l in H. destruct H as (H1 & H2 & H3 & H4); [by split_and!|done|].
  cbn. f_equal. destruct m; [exact H1|exact H2|exact H3|].
  rewrite H4. assert (Hz : forall rs, tally_of MSessionsEnded rs = 0%N).
  { induction rs0 as [|r rs0 IH]; [done|]. rewrite tally_cons, IH. by destruct r. }
  by rewrite Hz.
Qed.

(** The end of a session is never counted. *)
Lemma c82_never_ended l cs :
  (lenN cs < 2 ^ 63)%N -> call_result l cs (HCounter MSessionsEnded) = HRCounter None.
Proof.
  intros Hb. rewrite c82_counters by done.
  assert (Hz : forall rs, tally_of MSessionsEnded rs = 0%N).
  { induction rs as [|r rs IH]; [done|]. rewrite tally_cons, IH. by destruct r. }
  by rewrite Hz.
Qed.
