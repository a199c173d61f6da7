(** Every event of any history of sessions: the proof of [C47_every_event]. *)
From Verif Require Import Bytes BytesFacts Metrics Session Prog Commands HistorySpec LibSpec
  EngineFacts HistoryFacts LibFacts.
From stdpp Require Import gmap list.
From Coq Require Import NArith ZArith Lia.
From Coq Require Import ZifyBool ZifyNat ZifyN.

Definition one_event (dbg : bool) (ev : event) (s : store) (m : sessions) : store * sessions * result :=
  match ev with
  | EvCall c => let '(s, r) := dispatch (c_env c) s (c_req c) (c_res c) in (s, m, ROutcome r)
  | EvSessionAdd t =>
    let '(m, cs, id) := session_add dbg m (st_counters s) t in
    (Store (st_keys s) cs, m, RSession id)
  | EvSessionRemove id => let '(m, b) := session_remove m id in (s, m, RRemoved b)
  end.

Lemma run_events_snoc dbg h ev : forall s m,
  run_events dbg (h ++ [ev]) s m =
  let '(s, m, rs) := run_events dbg h s m in
  let '(s, m, r) := one_event dbg ev s m in (s, m, rs ++ [r]).
Proof.
  induction h as [|ev' h IH]; intros s m.
  - cbn [app run_events]. fold (one_event dbg ev s m).
    by destruct (one_event dbg ev s m) as [[s' m'] r].
  - cbn [app run_events]. fold (one_event dbg ev' s m).
    destruct (one_event dbg ev' s m) as [[s1 m1] r1]. rewrite IH.
    destruct (run_events dbg h s1 m1) as [[s2 m2] rs].
    by destruct (one_event dbg ev s2 m2) as [[s3 m3] r].
Qed.

Lemma run_events_take dbg h i s m :
  (run_events dbg (take i h) s m).2 = take i (run_events dbg h s m).2.
Proof.
  revert i s m. induction h as [|ev h IH]; intros i s m; [by destruct i|].
  destruct i as [|i]; [done|]. cbn [take run_events]. fold (one_event dbg ev s m).
  destruct (one_event dbg ev s m) as [[s1 m1] r1]. specialize (IH i s1 m1).
  destruct (run_events dbg (take i h) s1 m1) as [[s2 m2] rs].
  destruct (run_events dbg h s1 m1) as [[s3 m3] rs']. cbn in *. by rewrite IH.
Qed.

Lemma kept_snoc h ev (rs : list result) r t id : length rs = length h ->
  added_and_kept (h ++ [ev]) (rs ++ [r]) t id <->
  (added_and_kept h rs t id /\ ev <> EvSessionRemove id) \/
  (ev = EvSessionAdd t /\ r = RSession (Some id)).
Proof.
  intros Hl. unfold added_and_kept, gave. split.
  - intros (h1 & h2 & Hh & Hg & Hn). destruct h2 as [|x h2 _] using rev_ind.
    + apply app_inj_tail in Hh as [-> ->]. right. split; [done|].
      rewrite <-Hl, list_lookup_middle in Hg by done. by injection Hg.
    + change (EvSessionAdd t :: h2 ++ [x]) with ((EvSessionAdd t :: h2) ++ [x]) in Hh.
      rewrite app_assoc in Hh. apply app_inj_tail in Hh as [-> ->]. left. split.
      * exists h1, h2. split; [done|]. split.
        -- rewrite lookup_app_l in Hg; [done|]. rewrite Hl, app_length. cbn. lia.
        -- intros H. apply Hn, elem_of_app. by left.
      * intros ->. apply Hn, elem_of_app. right. by apply elem_of_list_singleton.
  - intros [[(h1 & h2 & -> & Hg & Hn) Hev]|[-> ->]].
    + exists h1, (h2 ++ [ev]). rewrite <-app_assoc. split; [done|]. split.
      * by apply lookup_app_l_Some.
      * intros [H|H%elem_of_list_singleton]%elem_of_app; [done|]. by subst.
    + exists h, []. split; [done|]. split; [|by intros ?%elem_of_nil].
      rewrite <-Hl. by apply list_lookup_middle.
Qed.

Lemma how_many_snoc f rs r :
  how_many f (rs ++ [r]) = (how_many f rs + if f r then 1 else 0)%N.
Proof.
  unfold how_many. rewrite filter_app, lenN_app. f_equal. unfold filter; cbn.
  by destruct (f r).
Qed.

Lemma sessions_state dbg h : (lenN h < 2 ^ 63)%N ->
  let '(s, m, rs) := run_events dbg h store_new sessions_new in
  length rs = length h /\
  (count s MSessionsStarted <= lenN h)%N /\
  sm_next m = (how_many session_result rs mod 2 ^ 32)%N /\
  (forall id x, sm_live m !! id = Some x <->
     exists t, x = Session.Session t id /\ added_and_kept h rs t id).
Proof.
  induction h as [|ev h IH] using rev_ind; intros Hlen.
  { cbn. split_and!; try done. intros id x. rewrite lookup_empty. split; [done|].
    intros (t & _ & h1 & h2 & Hh & _). by destruct h1. }
  rewrite lenN_app in *. change (lenN [ev]) with 1%N in *.
  rewrite run_events_snoc. specialize (IH ltac:(lia)).
  destruct (run_events dbg h store_new sessions_new) as [[s m] rs]. destruct IH as (I1 & I2 & I3 & I4).
  destruct ev as [c|t|id0]; cbn [one_event].
  - pose proof (count_dispatch (c_env c) s (c_req c) (c_res c) MSessionsStarted ltac:(lia)) as Hc.
    destruct (dispatch _ _ _ _) as [s1 r]. cbn [fst] in Hc.
    rewrite !app_length, how_many_snoc. cbn [session_result]. split_and!; [cbn; lia|lia|by rewrite N.add_0_r|].
    intros id x. rewrite I4. setoid_rewrite kept_snoc; [|done]. split.
    + intros (t & -> & Hk). exists t. split; [done|]. left. done.
    + intros (t & -> & [[Hk _]|[? _]]); [|done]. by exists t.
  - unfold session_add. destruct (sm_live m !! sm_next m) as [x|] eqn:Hl.
    + rewrite !app_length, how_many_snoc. cbn [session_result]. split_and!; [cbn; lia|cbn; unfold count in *; cbn; lia|by rewrite N.add_0_r|].
      intros id y. rewrite I4. setoid_rewrite kept_snoc; [|done]. split.
      * intros (t' & -> & Hk). exists t'. split; [done|]. left. done.
      * intros (t' & -> & [[Hk _]|[_ ?]]); [|done]. by exists t'.
    + pose proof (count_inc (Env dbg map_to_list elements) s MSessionsStarted) as Hk. cbn in Hk.
      rewrite Hk by (unfold u64_mod; lia).
      rewrite !app_length, how_many_snoc. cbn [session_result]. split_and!; [cbn; lia| | |].
      * unfold count at 1. cbn. rewrite lookup_insert. cbn. lia.
      * cbn [sm_next]. unfold u32_succ, u32_mod. rewrite I3. by rewrite N.add_mod_idemp_l.
      * cbn [sm_live]. intros id y. rewrite lookup_insert_Some, I4. setoid_rewrite kept_snoc; [|done].
        split.
        -- intros [[<- <-]|(Hne & t' & -> & Hkp)].
           ++ exists t. split; [done|]. by right.
           ++ exists t'. split; [done|]. by left.
        -- intros (t' & -> & [[Hkp _]|[[= <-] [= <-]]]); [|by left]. right. split; [|by exists t'].
           intros <-. assert (Hx : sm_live m !! sm_next m = Some (Session.Session t' (sm_next m))).
           { apply I4. by exists t'. }
           congruence.
  - unfold session_remove.
    rewrite !app_length, how_many_snoc. cbn [session_result]. split_and!; [cbn; lia|lia|by rewrite N.add_0_r|].
    cbn [sm_live]. intros id x. rewrite lookup_delete_Some, I4. setoid_rewrite kept_snoc; [|done]. split.
    + intros (Hne & t & -> & Hk). exists t. split; [done|]. left. split; [done|]. congruence.
    + intros (t & -> & [[Hk Hne]|[? _]]); [|done]. split; [congruence|]. by exists t.
Qed.

Lemma c47_every_event dbg h i : (lenN h < 2 ^ 63)%N ->
  let rs := (run_events dbg h store_new sessions_new).2 in
  let live id := exists t, added_and_kept (take i h) (take i rs) t id in
  let next := (how_many session_result (take i rs) mod 2 ^ 32)%N in
  (forall t, h !! i = Some (EvSessionAdd t) ->
     (~ live next /\ rs !! i = Some (RSession (Some next))) \/
     (live next /\ rs !! i = Some (RSession None))) /\
  (forall id, h !! i = Some (EvSessionRemove id) ->
     exists b, rs !! i = Some (RRemoved b) /\ (b = true <-> live id)).
Proof.
  intros Hlen rs live next.
  assert (Hlive : forall ev, h !! i = Some ev ->
    exists s m, rs !! i = Some (one_event dbg ev s m).2 /\
      (count s MSessionsStarted < 2 ^ 63)%N /\ sm_next m = next /\
      forall id, live id <-> is_Some (sm_live m !! id)).
  { intros ev Hev. pose proof (lookup_lt_Some _ _ _ Hev) as Hi.
    pose proof (run_events_snoc dbg (take i h) ev store_new sessions_new) as E.
    rewrite <-(take_S_r _ _ _ Hev) in E.
    pose proof (run_events_take dbg h (S i) store_new sessions_new) as ES. rewrite E in ES.
    pose proof (run_events_take dbg h i store_new sessions_new) as E0.
    pose proof (sessions_state dbg (take i h)) as Hst.
    assert (Hti : (lenN (take i h) <= lenN h)%N) by (unfold lenN; rewrite take_length; lia).
    specialize (Hst ltac:(lia)).
    destruct (run_events dbg (take i h) store_new sessions_new) as [[s m] rs0].
    destruct Hst as (H1 & H2 & H3 & H4). cbn [snd] in E0. subst rs0. fold rs in H1, H2, H3, H4, ES.
    exists s, m. split_and!.
    - destruct (one_event dbg ev s m) as [[s' m'] r]. cbn [snd] in *.
      rewrite <-(lookup_take rs (S i) i) by lia. rewrite <-ES.
      rewrite (take_length_le h) in H1 by lia. apply list_lookup_middle. lia.
    - lia.
    - done.
    - intros id. unfold live. split.
      + intros [t Ht]. exists (Session.Session t id). apply H4. by exists t.
      + intros [x (t & _ & Ht)%H4]. by exists t. }
  split.
  - intros t Ht. destruct (Hlive _ Ht) as (s & m & Hr & Hc & Hn & Hl). rewrite Hl, <-Hn.
    cbn [one_event] in Hr. unfold session_add in Hr.
    destruct (sm_live m !! sm_next m) as [x|] eqn:Hx; [right; split; [by eexists|done]|].
    left. split; [by intros [? ?]|].
    pose proof (count_inc (Env dbg map_to_list elements) s MSessionsStarted) as Hk. cbn in Hk.
    rewrite Hk in Hr by (unfold u64_mod; lia). done.
  - intros id Hid. destruct (Hlive _ Hid) as (s & m & Hr & Hc & Hn & Hl).
    cbn [one_event session_remove] in Hr. eexists. split; [exact Hr|]. rewrite Hl.
    destruct (sm_live m !! id); split; try done. by intros [? ?].
Qed.
