(** Proofs about sessions, subscriptions, the timer and metrics (C45 - C50). *)
From Coq Require Import String.
From Verif Require Import Bytes BytesFacts Session PubSub Timer Metrics Prog Commands HistorySpec
  EngineFacts HistoryFacts LibSpec.
From stdpp Require Import gmap list.
From Coq Require Import NArith ZArith Lia.
From Coq Require Import ZifyBool ZifyNat ZifyN.

(** ** C47 *)

Lemma additions_cons ev h :
  additions (ev :: h) = ((if is_addition ev then 1 else 0) + additions h)%N.
Proof.
  unfold additions. rewrite filter_cons. destruct (is_addition ev); cbn.
  - rewrite decide_True by done. by rewrite lenN_cons.
  - by rewrite decide_False by done.
Qed.

(** The ids in use are below the next one, and the counter has room. *)
Definition sessions_inv (m : sessions) (s : store) : Prop :=
  (forall id x, sm_live m !! id = Some x -> (id < sm_next m)%N).

Lemma session_add_ok dbg m s t :
  sessions_inv m s -> (count s MSessionsStarted < 2 ^ 63)%N -> (sm_next m + 1 < u32_mod)%N ->
  session_add dbg m (st_counters s) t =
  (Sessions (sm_next m + 1) (<[sm_next m := Session.Session t (sm_next m)]> (sm_live m)),
   <[MSessionsStarted := (count s MSessionsStarted + 1)%N]> (st_counters s), Some (sm_next m)).
Proof.
  intros Hi Hc Hn. unfold session_add.
  destruct (sm_live m !! sm_next m) as [x|] eqn:Hl; [apply Hi in Hl; lia|].
  pose proof (count_inc (Env dbg map_to_list elements) s MSessionsStarted) as Hk.
  cbn in Hk. rewrite Hk by (unfold u64_mod; lia). unfold u32_succ.
  by rewrite N.mod_small by done.
Qed.

Lemma count_dispatch e s req res m :
  (count s m < 2 ^ 64 - 1)%N ->
  (count (dispatch e s req res).1 m <= count s m + 1)%N.
Proof.
  intros Hc. rewrite dispatch_run.
  pose proof (quiet_run _ s (command_quiet e req res)) as Hq.
  destruct (run _ s) as [s1 r]. cbn [fst snd] in *.
  replace (count s m) with (count s1 m) in * by (unfold count; by rewrite Hq). clear Hq.
  assert (Hi : forall m', (count (match counters_increment (debug e) (st_counters s1) m' with
      | Ok cs => (Store (st_keys s1) cs, r) | Panic => (s1, CPanic) end).1 m <= count s1 m + 1)%N).
  { intros m'. unfold counters_increment.
    destruct (uadd _ _ _ _) as [n|] eqn:Hu; cbn; [|lia].
    unfold count. cbn. destruct (decide (m = m')) as [<-|Hne].
    - rewrite lookup_insert. cbn. unfold uadd in Hu.
      destruct (_ <? _)%N eqn:Hlt; [injection Hu as <-; fold (count s1 m); lia|].
      fold (count s1 m) in *. unfold u64_mod in *. lia.
    - rewrite lookup_insert_ne by done. lia. }
  unfold tally. destruct r; cbn; [apply Hi|apply Hi|lia].
Qed.

Lemma sessions_run dbg h : forall s m,
  sessions_inv m s -> (count s MSessionsStarted + lenN h < 2 ^ 63)%N ->
  (sm_next m + additions h < u32_mod)%N ->
  let '(s', m', rs) := run_events dbg h s m in
  (forall i t, h !! i = Some (EvSessionAdd t) ->
     exists id, gave rs i id /\ (sm_next m <= id)%N) /\
  (forall i j id, gave rs i id -> gave rs j id -> i = j) /\
  (forall i id, gave rs i id -> (sm_next m <= id)%N) /\
  (forall id x, sm_live m' !! id = Some x <->
     (sm_live m !! id = Some x /\ ~ EvSessionRemove id ∈ h) \/
     (exists t, x = Session.Session t id /\ added_and_kept h rs t id)).
Proof.
  induction h as [|ev h IH]; intros s m Hi Hc Hn.
  { cbn. split_and!; try done.
    intros id x. split; [intros Hx; left; split; [done|by inversion 1]|].
    intros [[? _]|(t & _ & h1 & h2 & Hh & _)]; [done|]. by destruct h1. }
  rewrite lenN_cons in Hc. rewrite additions_cons in Hn. cbn [run_events].
  (* one event that gives no session: the state of sessions after it is [m1] *)
  assert (Hstep : forall s1 m1 r,
    sessions_inv m1 s1 -> (count s1 MSessionsStarted + lenN h < 2 ^ 63)%N ->
    sm_next m1 = sm_next m -> (forall id, r <> RSession (Some id)) -> is_addition ev = false ->
    (forall id x, sm_live m1 !! id = Some x <->
       sm_live m !! id = Some x /\ ev <> EvSessionRemove id) ->
    let '(s', m', rs) := (let '(s, m, rs) := run_events dbg h s1 m1 in (s, m, r :: rs)) in
    (forall i t, (ev :: h) !! i = Some (EvSessionAdd t) ->
       exists id, gave rs i id /\ (sm_next m <= id)%N) /\
    (forall i j id, gave rs i id -> gave rs j id -> i = j) /\
    (forall i id, gave rs i id -> (sm_next m <= id)%N) /\
    (forall id x, sm_live m' !! id = Some x <->
       (sm_live m !! id = Some x /\ ~ EvSessionRemove id ∈ (ev :: h)) \/
       (exists t, x = Session.Session t id /\ added_and_kept (ev :: h) rs t id))).
  { intros s1 m1 r Hi1 Hc1 Hn1 Hr Hev Hl. rewrite Hev in Hn.
    specialize (IH s1 m1 Hi1 Hc1). rewrite Hn1 in IH. specialize (IH ltac:(lia)).
    destruct (run_events dbg h s1 m1) as [[s' m'] rs]. destruct IH as (I1 & I2 & I3 & I4).
    assert (Hg0 : forall id, ~ gave (r :: rs) 0 id).
    { intros id [= H]. by eapply Hr. }
    split_and!.
    - intros [|i] t; cbn; [intros [= ->]; done|]. apply I1.
    - intros [|i] [|j] id Hgi Hgj; [done|by destruct (Hg0 id)..|]. f_equal. by eapply I2.
    - intros [|i] id Hg; [by destruct (Hg0 id)|]. by eapply I3.
    - intros id x. rewrite I4, Hl. split.
      + intros [[[H1 H2] H3]|(t & -> & h1 & h2 & -> & Hg & Hk)].
        * left. split; [done|]. intros [|]%elem_of_cons; [by apply H2|done].
        * right. exists t. split; [done|]. exists (ev :: h1), h2. done.
      + intros [[H1 H2]|(t & -> & h1 & h2 & Hh & Hg & Hk)].
        * left. split_and!; [done| |]; intros H; apply H2; [subst ev; apply elem_of_cons; by left|].
          apply elem_of_cons. by right.
        * right. exists t. split; [done|]. destruct h1 as [|ev' h1]; [by destruct (Hg0 id)|].
          injection Hh as <- ->. exists h1, h2. done. }
  destruct ev as [c|t|id0].
  - pose proof (count_dispatch (c_env c) s (c_req c) (c_res c) MSessionsStarted) as Hcd.
    destruct (dispatch _ _ _ _) as [s1 r]. cbn [fst] in Hcd.
    apply Hstep; try done; try lia.
    intros id x. split; [by intros|by intros [? _]].
  - cbn [is_addition] in Hn.
    rewrite (session_add_ok dbg m s t) by (done || lia).
    set (m1 := Sessions (sm_next m + 1) _).
    set (s1 := Store _ _).
    assert (Hi1 : sessions_inv m1 s1).
    { intros id x. cbn. intros [[<- _]|[_ Hx]]%lookup_insert_Some; [lia|]. apply Hi in Hx. lia. }
    assert (Hc1 : (count s1 MSessionsStarted = count s MSessionsStarted + 1)%N).
    { unfold count at 1, s1. cbn. by rewrite lookup_insert. }
    specialize (IH s1 m1 Hi1). rewrite Hc1 in IH.
    change (sm_next m1) with (sm_next m + 1)%N in IH.
    specialize (IH ltac:(lia) ltac:(lia)).
    destruct (run_events dbg h s1 m1) as [[s' m'] rs]. destruct IH as (I1 & I2 & I3 & I4).
    split_and!.
    + intros [|i] t'; cbn.
      * intros _. exists (sm_next m). split; [done|lia].
      * intros Hi'. destruct (I1 i t' Hi') as (id & Hg & Hle). exists id. split; [done|lia].
    + intros [|i] [|j] id Hgi Hgj; [done| | |f_equal; by eapply I2].
      * injection Hgi as <-. apply I3 in Hgj. lia.
      * injection Hgj as <-. apply I3 in Hgi. lia.
    + intros [|i] id Hg; [injection Hg as <-; lia|]. apply I3 in Hg. lia.
    + intros id x. rewrite I4. cbn [sm_live m1]. split.
      * intros [[Hx Hk]|(t' & -> & h1 & h2 & -> & Hg & Hk)].
        -- apply lookup_insert_Some in Hx as [[<- <-]|[Hne Hx]].
           ++ right. exists t. split; [done|]. exists [], h. done.
           ++ left. split; [done|]. by intros [|]%elem_of_cons.
        -- right. exists t'. split; [done|]. exists (EvSessionAdd t :: h1), h2. done.
      * intros [[Hx Hk]|(t' & -> & h1 & h2 & Hh & Hg & Hk)].
        -- left. split.
           ++ rewrite lookup_insert_ne; [done|]. intros <-. apply Hi in Hx. lia.
           ++ intros H. apply Hk. apply elem_of_cons. by right.
        -- destruct h1 as [|ev' h1].
           ++ injection Hh as <- <-. injection Hg as <-. left. by rewrite lookup_insert.
           ++ injection Hh as <- ->. right. exists t'. split; [done|]. exists h1, h2. done.
  - unfold session_remove.
    apply Hstep; try done; cbn.
    + intros id x. cbn. intros [_ Hx]%lookup_delete_Some. by apply Hi in Hx.
    + lia.
    + intros id x. rewrite lookup_delete_Some. split.
      * intros [Hne Hx]. split; [done|]. congruence.
      * intros [Hx Hne]. split; [congruence|done].
Qed.

Lemma c47 dbg h :
  (lenN h < 2 ^ 63)%N -> (additions h < 2 ^ 32)%N ->
  let '(_, m, rs) := run_events dbg h store_new sessions_new in
  (forall i t, h !! i = Some (EvSessionAdd t) -> exists id, gave rs i id) /\
  (forall i j id, gave rs i id -> gave rs j id -> i = j) /\
  (forall id x, sm_live m !! id = Some x <->
     exists t, x = Session.Session t id /\ added_and_kept h rs t id).
Proof.
  intros Hl Ha. pose proof (sessions_run dbg h store_new sessions_new) as H.
  destruct (run_events dbg h store_new sessions_new) as [[s m] rs].
  destruct H as (H1 & H2 & H3 & H4).
  - intros id x. cbn. by rewrite lookup_empty.
  - change (count store_new MSessionsStarted) with 0%N. lia.
  - change (sm_next sessions_new) with 0%N. unfold u32_mod. lia.
  - split_and!.
    + intros i t Hi. destruct (H1 i t Hi) as (id & ? & _). eauto.
    + done.
    + intros id x. rewrite H4. cbn. rewrite lookup_empty. split; [|by auto].
      by intros [[? _]|?].
Qed.

(** ** C48 *)

(** The id a thread has inserted at, if any. *)
Definition owns (a : add_state) : option N :=
  match a with
  | AInserted i | ACounted i | AReload i _ | AStored i | ADone i => Some i
  | _ => None
  end.

Definition token_of (a : add_state) : option bytes :=
  match a with
  | AStart t | ALoaded t _ | AEntry t _ _ => Some t
  | _ => None
  end.

Definition adds_inv (tokens : list bytes) (x : list add_state * add_shared) : Prop :=
  length x.1 = length tokens /\
  (forall i a t, x.1 !! i = Some a -> token_of a = Some t -> tokens !! i = Some t) /\
  (forall i a id, x.1 !! i = Some a -> owns a = Some id ->
     exists t id', tokens !! i = Some t /\
       sm_live (as_sessions x.2) !! id = Some (Session.Session t id')) /\
  (forall i j a b id, x.1 !! i = Some a -> x.1 !! j = Some b ->
     owns a = Some id -> owns b = Some id -> i = j).

Lemma adds_inv_step dbg tokens i x x' :
  adds_inv tokens x -> adds_step dbg i x = Some x' -> adds_inv tokens x'.
Proof.
  destruct x as [l g]. unfold adds_step. cbn [fst snd].
  destruct (l !! i) as [a|] eqn:Ha; [|done].
  destruct (add_step dbg a g) as [[a' g']|] eqn:Hs; [|done]. intros (H0 & H1 & H2 & H3) [= <-].
  cbn [fst snd] in *.
  assert (Hlt : (i < length l)%nat) by (by eapply lookup_lt_Some).
  (* a step that keeps the sessions and what the thread owns *)
  assert (Hkeep : sm_live (as_sessions g') = sm_live (as_sessions g) ->
    (owns a' = owns a \/ owns a' = None) ->
    (forall t, token_of a' = Some t -> token_of a = Some t) ->
    adds_inv tokens (<[i := a']> l, g')).
  { intros Hl Ho Ht. split_and!; cbn [fst snd].
    - by rewrite insert_length.
    - intros j b t Hj Hb. destruct (decide (i = j)) as [<-|Hne].
      + rewrite list_lookup_insert in Hj by done. injection Hj as <-. eapply H1; [done|by apply Ht].
      + rewrite list_lookup_insert_ne in Hj by done. by eapply H1.
    - intros j b id Hj Hb. rewrite Hl. destruct (decide (i = j)) as [<-|Hne].
      + rewrite list_lookup_insert in Hj by done. injection Hj as <-. eapply H2; [done|].
        destruct Ho; congruence.
      + rewrite list_lookup_insert_ne in Hj by done. by eapply H2.
    - intros j k b c id Hj Hk Hb Hc.
      destruct (decide (i = j)) as [<-|Hne], (decide (i = k)) as [<-|Hne']; [done|..];
        repeat match goal with
        | H : <[?i := _]> _ !! ?i = Some _ |- _ =>
          rewrite list_lookup_insert in H by done; injection H as <-
        | H : <[_ := _]> _ !! _ = Some _ |- _ => rewrite list_lookup_insert_ne in H by done
        end.
      + eapply (H3 i k); [done|done| |done]. destruct Ho; congruence.
      + eapply (H3 j i); [done|done|done|]. destruct Ho; congruence.
      + by eapply H3. }
  destruct a as [t|t id|t id at_|at_|at_|at_ n|at_|id|]; cbn in Hs.
  - injection Hs as <- <-. apply Hkeep; auto.
  - injection Hs as <- <-. apply Hkeep; auto.
  - destruct (decide _); [done|].
    destruct (sm_live (as_sessions g) !! at_) as [y|] eqn:Hv.
    + injection Hs as <- <-. apply Hkeep; auto; done.
    + injection Hs as <- <-. clear Hkeep.
      assert (Ht : tokens !! i = Some t) by (by eapply H1).
      assert (Hfresh : forall j b, l !! j = Some b -> owns b = Some at_ -> False).
      { intros j b Hj Hb. destruct (H2 j b at_ Hj Hb) as (t' & id' & _ & H). congruence. }
      split_and!; cbn [fst snd as_sessions sm_live].
      * by rewrite insert_length.
      * intros j b t' Hj Hb. destruct (decide (i = j)) as [<-|Hne].
        -- rewrite list_lookup_insert in Hj by done. by injection Hj as <-.
        -- rewrite list_lookup_insert_ne in Hj by done. by eapply H1.
      * intros j b id' Hj Hb. destruct (decide (i = j)) as [<-|Hne].
        -- rewrite list_lookup_insert in Hj by done. injection Hj as <-. injection Hb as <-.
           exists t, id. split; [done|]. by rewrite lookup_insert.
        -- rewrite list_lookup_insert_ne in Hj by done.
           destruct (H2 j b id' Hj Hb) as (t' & i' & Ht' & Hl). exists t', i'. split; [done|].
           rewrite lookup_insert_ne; [done|]. intros <-. by eapply Hfresh.
      * intros j k b c id' Hj Hk Hb Hc.
        destruct (decide (i = j)) as [<-|Hne], (decide (i = k)) as [<-|Hne']; [done|..];
        repeat match goal with
        | H : <[?i := _]> _ !! ?i = Some _ |- _ =>
          rewrite list_lookup_insert in H by done; injection H as <-
        | H : <[_ := _]> _ !! _ = Some _ |- _ => rewrite list_lookup_insert_ne in H by done
        end.
        -- injection Hb as <-. exfalso. by eapply Hfresh.
        -- injection Hc as <-. exfalso. by eapply Hfresh.
        -- by eapply H3.
  - destruct (counters_increment _ _ _); injection Hs as <- <-; apply Hkeep; auto; done.
  - injection Hs as <- <-. apply Hkeep; auto; done.
  - injection Hs as <- <-. apply Hkeep; auto; done.
  - injection Hs as <- <-. apply Hkeep; auto; done.
  - done.
  - done.
Qed.

Lemma adds_inv_start tokens : adds_inv tokens (adds_start tokens).
Proof.
  unfold adds_start. split_and!; cbn [fst snd].
  - by rewrite map_length.
  - intros i a t Hi Ht. rewrite list_lookup_fmap in Hi.
    destruct (tokens !! i) as [t'|]; [|done]. injection Hi as <-. by injection Ht as ->.
  - intros i a id Hi. rewrite list_lookup_fmap in Hi.
    destruct (tokens !! i) as [t'|]; [|done]. by injection Hi as <-.
  - intros i j a b id Hi. rewrite list_lookup_fmap in Hi.
    destruct (tokens !! i) as [t'|]; [|done]. by injection Hi as <-.
Qed.

Lemma adds_inv_run dbg tokens sched : forall x x',
  adds_inv tokens x -> adds_run dbg sched x = Some x' -> adds_inv tokens x'.
Proof.
  induction sched as [|i r IH]; intros x x' Hx Hr; cbn in Hr; [by injection Hr as <-|].
  destruct (adds_step dbg i x) as [y|] eqn:Hs; [|done].
  eapply IH; [|done]. by eapply adds_inv_step.
Qed.

Lemma c48_distinct dbg tokens sched l g :
  adds_run dbg sched (adds_start tokens) = Some (l, g) ->
  (forall i id, l !! i = Some (ADone id) ->
     exists t id', tokens !! i = Some t /\
       sm_live (as_sessions g) !! id = Some (Session.Session t id')) /\
  (forall i j id, l !! i = Some (ADone id) -> l !! j = Some (ADone id) -> i = j).
Proof.
  intros Hr. apply (adds_inv_run dbg tokens) in Hr; [|apply adds_inv_start].
  destruct Hr as (_ & _ & H2 & H3). cbn in *. split.
  - intros i id Hi. by eapply H2.
  - intros i j id Hi Hj. by eapply H3.
Qed.

(** Both load the counter before either stores it; the second finds the entry taken. *)
Lemma c48_false dbg t0 t1 :
  exists sched l g, adds_run dbg sched (adds_start [t0; t1]) = Some (l, g) /\
    l = [ADone 0; APanicked].
Proof.
  exists [0; 1; 1; 0; 0; 0; 0; 0; 0; 1]%nat.
  destruct dbg; eexists _, _; split; vm_compute; reflexivity.
Qed.

(** One loads the id, the other adds a session, the first then inserts under the new
    counter: the session's own id is not the one it is stored under. *)
Lemma c48_wrong_id dbg t0 t1 :
  exists sched l g, adds_run dbg sched (adds_start [t0; t1]) = Some (l, g) /\
    l = [ADone 1; ADone 0] /\
    sm_live (as_sessions g) !! 1%N = Some (Session.Session t0 0).
Proof.
  exists ([0] ++ repeat 1 7 ++ repeat 0 6)%nat.
  destruct dbg; eexists _, _; split_and!; vm_compute; reflexivity.
Qed.
