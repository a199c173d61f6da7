(** Tasks that share one memory client: lemmas for C95 - C97. *)
From Verif Require Import Locks LockSpec LockScripts LockScriptSpec LockScriptFacts.
From Verif Require Import Bytes BytesFacts Utf8 Float64 Value CommandId Request Response RespContext
  Metrics Prog Commands EngineSpec WireSpec RequestSpec RequestFacts HistorySpec ProgFacts
  CommandFacts SafeFacts EngineFacts EngineProps HistoryFacts Concurrent ConcSpec ConcFacts ConcProps
  Scripts LinSpec LinFacts KeyLinSpec KeyLin KeyLinFacts IsoSpec IsoFacts ScriptInv IsoProps
  Client ClientSpec ClientFacts ClientProps MemTasks MemTaskSpec.
From stdpp Require Import gmap list.
From Coq Require Import NArith ZArith Lia.
From Coq Require Import ZifyBool ZifyNat ZifyN.

(** ** One task alone *)

Lemma mem_call_phases e s c :
  mem_call e s c =
  match build e c with
  | ROk b => let '(s, r) := dispatch e s (into_request b) [] in (s, finish e c r)
  | r => (s, not_sent r)
  end.
Proof.
  rewrite mem_call_method. unfold mem_method. destruct (build e c) as [b|err| |]; [|done..].
  unfold mem_send, finish. by destruct (dispatch e s (into_request b) []) as [s' r].
Qed.

Lemma alone_is_mem_calls h : forall s,
  mem_calls h s = ((run_calls (dispatches h) s).1, results h (run_calls (dispatches h) s).2).
Proof.
  induction h as [|[e c] h IH]; intros s; [done|]. cbn [mem_calls dispatches results].
  rewrite mem_call_phases. destruct (build e c) as [b|err| |]; try (by rewrite IH).
  cbn [run_calls c_env c_req c_res]. destruct (dispatch e s (into_request b) []) as [s' r].
  rewrite IH. by destruct (run_calls (dispatches h) s') as [s'' rs].
Qed.

Lemma results_take h : forall rs n, results h (take n rs) `prefix_of` results h rs.
Proof.
  induction h as [|[e c] h IH]; intros rs n; [done|]. cbn [results].
  destruct (build e c) as [b|err| |]; [|by apply prefix_cons..].
  destruct rs as [|r rs]; [by rewrite take_nil|].
  destruct n as [|n]; cbn; [apply prefix_nil|by apply prefix_cons].
Qed.

Lemma run_calls_take h : forall s n, (run_calls (take n h) s).2 = take n (run_calls h s).2.
Proof.
  induction h as [|c h IH]; intros s n; [cbn; by rewrite !take_nil|]. destruct n as [|n]; [done|].
  cbn [take run_calls]. destruct (dispatch _ _ _ _) as [s' r]. specialize (IH s' n).
  destruct (run_calls (take n h) s'), (run_calls h s'). cbn in *. by rewrite IH.
Qed.

Lemma results_length h : forall rs, length rs = length (dispatches h) -> length (results h rs) = length h.
Proof.
  induction h as [|[e c] h IH]; intros rs; [done|]. cbn [results dispatches].
  destruct (build e c) as [b|err| |]; cbn; [|intros H; by rewrite IH..].
  destruct rs as [|r rs]; cbn; [done|]. intros [= H]. by rewrite IH.
Qed.

Lemma map_calls_length h : forall i, length (map_calls h i).2 = length h.
Proof.
  induction h as [|[e c] h IH]; intros i; [done|]. cbn. destruct (map_call c i) as [i' x].
  specialize (IH i'). destruct (map_calls h i'). cbn in *. by rewrite IH.
Qed.

(** ** Calls and dispatches *)

(** Call [a] of the tasks is dispatch [b] of the clients. *)
Definition same_place (tasks : list task) (a b : nat * nat) : Prop :=
  a.1 = b.1 /\ exists h e c bl, tasks !! a.1 = Some h /\ h !! a.2 = Some (e, c) /\
    build e c = ROk bl /\ b.2 = length (dispatches (take a.2 h)).

Lemma dispatches_app h h' : dispatches (h ++ h') = dispatches h ++ dispatches h'.
Proof.
  induction h as [|[e c] h IH]; [done|]. cbn. destruct (build e c); cbn; by rewrite IH.
Qed.

Lemma dispatch_place h : forall j e c b, h !! j = Some (e, c) -> build e c = ROk b ->
  dispatches h !! length (dispatches (take j h)) = Some (Call e (into_request b) []).
Proof.
  intros j e c b Hj Hb. rewrite <-(take_drop_middle _ _ _ Hj) at 2. rewrite dispatches_app.
  rewrite lookup_app_r, Nat.sub_diag by done. cbn. by rewrite Hb.
Qed.

Lemma dispatch_from h : forall n d, dispatches h !! n = Some d ->
  exists j e c b, h !! j = Some (e, c) /\ build e c = ROk b /\ d = Call e (into_request b) [] /\
    n = length (dispatches (take j h)).
Proof.
  induction h as [|[e c] h IH]; intros n d Hd; [done|]. cbn in Hd.
  destruct (build e c) as [b|err| |] eqn:Hb.
  1: destruct n as [|n]; cbn in Hd; [injection Hd as <-; exists 0, e, c, b; done|].
  all: destruct (IH _ _ Hd) as (j & e' & c' & b' & H1 & H2 & H3 & H4); exists (S j), e', c', b';
    cbn [take dispatches lookup list_lookup]; rewrite Hb; cbn; split_and!; try done; try lia;
    by f_equal.
Qed.

Lemma same_place_inj tasks a a' b : same_place tasks a b -> same_place tasks a' b -> a = a'.
Proof.
  destruct a as [i j], a' as [i' j'], b as [i0 n]. unfold same_place. cbn.
  intros (-> & h & e & c & bl & Ht & Hj & Hb & Hn) (-> & h' & e' & c' & bl' & Ht' & Hj' & Hb' & Hn').
  f_equal. assert (h' = h) as -> by congruence.
  assert (Hlt : forall j1 j2 e c b, h !! j1 = Some (e, c) -> build e c = ROk b -> j1 < j2 ->
    length (dispatches (take j1 h)) < length (dispatches (take j2 h))).
  { clear. intros j1 j2 e c b H1 Hb Hlt.
    replace (take j2 h) with (take j1 h ++ (e, c) :: take (j2 - S j1) (drop (S j1) h)).
    - rewrite dispatches_app, app_length. cbn. rewrite Hb. cbn. lia.
    - rewrite <-(take_drop_middle _ _ _ H1) at 3. pose proof (lookup_lt_Some _ _ _ H1).
      rewrite take_app_ge; rewrite take_length, Nat.min_l by lia; [|lia].
      f_equal. destruct (j2 - j1) as [|m] eqn:Hm; [lia|]. cbn. do 2 f_equal. lia. }
  destruct (lt_eq_lt_dec j j') as [[H| ->]|H]; [|done|].
  - specialize (Hlt _ _ _ _ _ Hj Hb H). lia.
  - specialize (Hlt _ _ _ _ _ Hj' Hb' H). lia.
Qed.

Lemma same_place_fun tasks a b b' : same_place tasks a b -> same_place tasks a b' -> b = b'.
Proof.
  destruct a as [i j], b, b'. unfold same_place. cbn.
  intros (-> & h & _ & _ & _ & Ht & _ & _ & ->) (-> & h' & _ & _ & _ & Ht' & _ & _ & ->).
  by rewrite Ht in Ht'; injection Ht' as ->.
Qed.

Lemma dispatches_lookup (tasks : list task) i :
  map dispatches tasks !! i = dispatches <$> tasks !! i.
Proof. apply list_lookup_fmap. Qed.

Lemma call_at_tasks tasks b d : call_at (map dispatches tasks) b = Some d ->
  exists a e c bl, same_place tasks a b /\ task_call tasks a = Some (e, c) /\ build e c = ROk bl /\
    d = Call e (into_request bl) [].
Proof.
  destruct b as [i n]. unfold call_at. cbn. rewrite dispatches_lookup.
  destruct (tasks !! i) as [h|] eqn:Ht; [|done]. cbn. intros Hd.
  destruct (dispatch_from _ _ _ Hd) as (j & e & c & bl & H1 & H2 & H3 & H4).
  exists (i, j), e, c, bl. unfold same_place, task_call. cbn. rewrite Ht. cbn. split_and!; try done.
  eauto 10.
Qed.

Lemma tasks_call_at tasks a e c bl : task_call tasks a = Some (e, c) -> build e c = ROk bl ->
  exists b, same_place tasks a b /\ call_at (map dispatches tasks) b = Some (Call e (into_request bl) []).
Proof.
  destruct a as [i j]. unfold task_call. cbn. destruct (tasks !! i) as [h|] eqn:Ht; [|done]. cbn.
  intros Hj Hb. exists (i, length (dispatches (take j h))). split.
  - unfold same_place. cbn. split; [done|]. exists h, e, c, bl. done.
  - unfold call_at. cbn. rewrite dispatches_lookup, Ht. cbn. by eapply dispatch_place.
Qed.

Lemma results_at h : forall rs j e c b, h !! j = Some (e, c) -> build e c = ROk b ->
  results h rs !! j = finish e c <$> rs !! length (dispatches (take j h)).
Proof.
  induction h as [|[e c] h IH]; intros rs j e' c' b Hj Hb; [done|]. cbn [results].
  destruct j as [|j]; cbn in Hj.
  - injection Hj as -> ->. rewrite Hb. by destruct rs.
  - cbn [take dispatches]. destruct (build e c) as [b1|err| |] eqn:Hb1.
    + destruct rs as [|r rs]; [done|]. cbn. by eapply IH.
    + cbn. by eapply IH.
    + cbn. by eapply IH.
    + cbn. by eapply IH.
Qed.

Lemma got_returned tasks x a b e c r : same_place tasks a b -> task_call tasks a = Some (e, c) ->
  got tasks x a r -> exists q, lreturned x b q /\ r = finish e c q.
Proof.
  destruct a as [i j], b as [i' n]. unfold same_place, got, task_call, lreturned. cbn.
  intros (<- & h & e' & c' & bl & Ht & Hj & Hb & ->) Hc (h' & cl & Ht' & Hx & Hr).
  rewrite Ht in Ht', Hc. injection Ht' as <-. cbn in Hc. rewrite Hj in Hc. injection Hc as -> ->.
  rewrite (results_at _ _ _ _ _ _ Hj Hb) in Hr.
  destruct (lc_done cl !! _) as [q|] eqn:Hq; [|done]. cbn in Hr. injection Hr as <-. eauto.
Qed.

Lemma got_dispatch tasks x a b r : same_place tasks a b -> got tasks x a r ->
  exists q, lreturned x b q.
Proof.
  intros Hs Hg. destruct (task_call tasks a) as [[e c]|] eqn:Hc.
  - destruct (got_returned _ _ _ _ _ _ _ Hs Hc Hg) as (q & Hq & _). eauto.
  - destruct a as [i j]. destruct Hs as (_ & h & e & c & bl & Ht & Hj & _).
    unfold task_call in Hc. cbn in *. rewrite Ht in Hc. cbn in Hc. congruence.
Qed.

Lemma ahead_not_begun tasks x a b : same_place tasks a b -> ahead tasks x a -> lnot_begun x b.
Proof.
  destruct a as [i j], b as [i' n]. unfold same_place, ahead, lnot_begun. cbn.
  intros (<- & h & e' & c' & bl & Ht & Hj & Hb & ->) (h' & cl & Ht' & Hx & Hl).
  rewrite Ht in Ht'. injection Ht' as <-. eauto.
Qed.

Lemma earlier_before sh tasks s0 sched a a' b b' : same_place tasks a b -> same_place tasks a' b' ->
  earlier sh tasks s0 sched a a' -> lbefore sh (map dispatches tasks) s0 sched b b'.
Proof.
  intros H1 H2 (n & x & r & Hn & Hx & Hg & Ha).
  destruct (got_dispatch _ _ _ _ _ H1 Hg) as [q Hq].
  exists n, x, q. split_and!; [done|done|done|by eapply ahead_not_begun].
Qed.

(** A list of dispatches comes from a list of calls. *)
Lemma places_back tasks (out : list (nat * nat)) :
  (forall b, b ∈ out -> is_Some (call_at (map dispatches tasks) b)) ->
  exists out', Forall2 (same_place tasks) out' out.
Proof.
  induction out as [|b out IH]; intros H; [by exists []|].
  destruct IH as [out' Ho]; [intros b' Hb'; apply H; by right|].
  destruct (H b ltac:(by left)) as [d Hd].
  destruct (call_at_tasks _ _ _ Hd) as (a & e & c & bl & Hs & _).
  exists (a :: out'). by apply Forall2_cons.
Qed.

Lemma places_nodup tasks out' out : Forall2 (same_place tasks) out' out -> NoDup out -> NoDup out'.
Proof.
  intros HF Hn. apply NoDup_alt. intros i j a Hi Hj.
  destruct (Forall2_lookup_l _ _ _ _ _ HF Hi) as (b & Hb & Hs).
  destruct (Forall2_lookup_l _ _ _ _ _ HF Hj) as (b' & Hb' & Hs').
  pose proof (same_place_fun _ _ _ _ Hs Hs') as ->. by eapply NoDup_lookup.
Qed.

(** ** What the dispatches use *)

Lemma dispatches_concat (tasks : list task) : length (concat (map dispatches tasks)) <= length (concat tasks).
Proof.
  assert (H : forall h, length (dispatches h) <= length h).
  { induction h as [|[e c] h IH]; [done|]. cbn. destruct (build e c); cbn; lia. }
  induction tasks as [|h tasks IH]; [done|]. cbn. rewrite !app_length. specialize (H h). lia.
Qed.

Lemma fit_room tasks s0 : tasks_fit tasks s0 -> room_for_all (map dispatches tasks) s0.
Proof.
  intros H m. specialize (H m). pose proof (dispatches_concat tasks). unfold lenN in *.
  assert (2 ^ 63 < 2 ^ 64)%N by done. lia.
Qed.

Lemma build_asks e c b : env_ok e -> (sends c <= 255)%N -> build e c = ROk b ->
  let '(cmd, kt, l) := request_of e c in asks (into_request b) cmd kt l.
Proof.
  intros He Hs Hb. destruct (refused c) as [err|] eqn:Hr.
  - rewrite (makes_refused e c err He Hs Hr) in Hb. done.
  - destruct (makes_built e c He Hs Hr) as (b' & Hb' & Hm). rewrite Hb in Hb'.
    injection Hb' as <-. by apply makes_asks.
Qed.

Lemma carried_arg req (l : list bytes) i : carries req l -> arg req i = l !! N.to_nat i.
Proof. by intros [_ H]. Qed.

Lemma uses_touches e c b k : env_ok e -> (sends c <= 255)%N -> build e c = ROk b ->
  uses (into_request b) k -> touches c k.
Proof.
  intros He Hs Hb. pose proof (build_asks e c b He Hs Hb) as Ha. revert Ha. unfold uses, touches.
  destruct c; cbn [request_of named]; intros (Hc & _ & Hr); rewrite Hc; try done;
    rewrite ?(carried_arg _ _ _ Hr).
  all: try (intros [= <-]; by apply elem_of_list_singleton).
  all: try (intros [i Hi]; rewrite (carried_arg _ _ _ Hr) in Hi; by eapply elem_of_list_lookup_2).
  intros [[= <-]|[= <-]]; [by left|right; by left].
Qed.

Lemma may_write_changes e c b k : env_ok e -> (sends c <= 255)%N -> build e c = ROk b ->
  may_write (into_request b) k -> changes c k.
Proof.
  intros He Hs Hb Hw. pose proof (uses_touches e c b k He Hs Hb (may_write_uses _ _ Hw)) as Ht.
  destruct Hw as [Hro _]. pose proof (build_asks e c b He Hs Hb) as Ha. revert Ht Ha Hro.
  unfold touches, changes. by destruct c; cbn [request_of named]; intros Ht (Hc & _); rewrite Hc.
Qed.

Lemma touches_uses e c b k : env_ok e -> (sends c <= 255)%N -> build e c = ROk b ->
  touches c k -> uses (into_request b) k.
Proof.
  intros He Hs Hb. pose proof (build_asks e c b He Hs Hb) as Ha. revert Ha. unfold uses, touches.
  destruct c; cbn [request_of named]; intros (Hc & _ & Hr); rewrite Hc; try done;
    rewrite ?(carried_arg _ _ _ Hr); try (intros ->%elem_of_list_singleton; done).
  - intros [i Hi]%elem_of_list_lookup. exists (N.of_nat i). rewrite (carried_arg _ _ _ Hr).
    by rewrite Nat2N.id.
  - intros [i Hi]%elem_of_list_lookup. exists (N.of_nat i). rewrite (carried_arg _ _ _ Hr).
    by rewrite Nat2N.id.
  - intros [->|[->|[]%elem_of_nil]%elem_of_cons]%elem_of_cons; [by left|by right].
  - by intros []%elem_of_nil.
Qed.

(** ** C95 *)

Lemma own_alone tasks i : sendable tasks -> own_keys tasks i ->
  alone_with_its_keys (map dispatches tasks) i.
Proof.
  intros Hs Ho. split.
  - intros j d Hd. destruct (call_at_tasks _ _ _ Hd) as ([i0 j0] & e & c & bl & [Hi _] & Hc & Hb & ->).
    cbn in Hi. subst i0. destruct (Hs e c) as [He Hl]; [by eexists|].
    pose proof (build_asks e c bl He Hl Hb) as Ha. destruct (Ho _ _ _ Hc) as [Hns _]. cbn [c_req].
    by destruct c; destruct Ha as (-> & _).
  - intros j i' j' d d' k Hd Hd' Hne Hu Hw.
    destruct (call_at_tasks _ _ _ Hd) as ([i0 j0] & e & c & bl & [Hi _] & Hc & Hb & ->).
    destruct (call_at_tasks _ _ _ Hd') as ([i1 j1] & e' & c' & bl' & [Hi' _] & Hc' & Hb' & ->).
    cbn [fst snd c_req] in Hi, Hi', Hu, Hw. subst i0 i1.
    destruct (Hs e c) as [He Hl]; [by eexists|]. destruct (Hs e' c') as [He' Hl']; [by eexists|].
    destruct (Ho _ _ _ Hc) as [_ Hk]. apply (Hk _ _ _ _ _ Hc' Hne (uses_touches _ _ _ _ He Hl Hb Hu)).
    by eapply may_write_changes.
Qed.

Lemma lfinished_all sh scripts s0 i sc lsched x cl : room_for_all scripts s0 ->
  lsys_run sh lsched (lbegin scripts s0) = Some x ->
  scripts !! i = Some sc -> x.1 !! i = Some cl -> lfinished cl -> length (lc_done cl) = length sc.
Proof.
  intros Hroom Hr Hsc Hi [Hn Ht].
  destruct (lock_transfer _ _ _ _ _ Hr) as (sched & y & f & Hy & Hs & _).
  destruct (sinv_client _ _ _ _ _ Hs Hi) as (cl' & Hi' & Ed & Eb & Et). rewrite Ed.
  eapply finished_all; [done..|]. split; [|congruence].
  unfold lbegun, begun in Eb. rewrite Hn, Ed in Eb. destruct (cl_now cl'); [lia|done].
Qed.

Lemma Forall2_prefix {A B} (P : A -> B -> Prop) l l' k : Forall2 P l k -> l' `prefix_of` l ->
  Forall2 P l' (take (length l') k).
Proof.
  intros HF [r ->]. apply Forall2_app_inv_l in HF as (k1 & k2 & H1 & _ & ->).
  rewrite (Forall2_length _ _ _ H1), take_app. done.
Qed.

(** Without the counters. *)
Lemma plain_counts ks : counts_are (Store ks ∅) 0 0 0.
Proof. unfold counts_are, counter_is. cbn. by rewrite !lookup_empty. Qed.

Lemma c95 sh tasks i h s0 sched x cl :
  tasks_fit tasks s0 -> sendable tasks -> all_sound (st_keys s0) ->
  tasks !! i = Some h -> own_keys tasks i -> all_within h (Ideal (st_keys s0) 0 0) ->
  at_work sh tasks s0 sched = Some x -> x.1 !! i = Some cl ->
  let there := map_calls h (Ideal (st_keys s0) 0 0) in
  let returned := results h (lc_done cl) in
  Forall2 meets returned (take (length returned) there.2) /\
  (lfinished cl -> length returned = length h /\
     forall k e c, (e, c) ∈ h -> refused c = None -> touches c k -> unlocked sh x k ->
       st_keys x.2 !! k = i_keys there.1 !! k).
Proof.
  intros Hfit Hsend Hall Hh Ho Hw Hx Hi there returned.
  assert (Hlen : length h <= length (concat tasks)) by (eapply concat_length_le; exact Hh).
  pose proof (fit_room _ _ Hfit) as Hroom.
  assert (Hsc : map dispatches tasks !! i = Some (dispatches h)).
  { rewrite dispatches_lookup, Hh. done. }
  pose proof (own_alone _ _ Hsend Ho) as Hal.
  destruct (c93_locked sh _ s0 i _ _ _ _ Hroom Hsc Hal Hx Hi) as [H1 H2].
  pose proof (Hfit MCommandsErrored) as Hf0.
  pose proof (calls_agree h (Store (st_keys s0) ∅) (Ideal (st_keys s0) 0 0) eq_refl (plain_counts _) Hall)
    as Hag.
  assert (Hdl : length (dispatches h) <= length (concat (map dispatches tasks)))
    by (eapply concat_length_le; exact Hsc).
  destruct (run_calls_agree (dispatches h) s0 (Store (st_keys s0) ∅)) as [E1 E2].
  { intros m. specialize (Hroom m). unfold lenN in *. lia. }
  { intros m. specialize (Hroom m). unfold count. cbn. rewrite lookup_empty. unfold lenN in *. cbn. lia. }
  { intros c [j Hj]%elem_of_list_lookup. apply (proj1 Hal j). unfold call_at. cbn. by rewrite Hsc. }
  { done. }
  rewrite alone_is_mem_calls in Hag. subst there. destruct (map_calls h _) as [i' xs].
  cbn [i_ok i_err i_keys fst snd] in *.
  destruct Hag as [Hag1 Hag2]; [unfold lenN in *; lia|done|].
  rewrite run_calls_take in H1. rewrite <-E1 in Hag1.
  assert (Hp : returned `prefix_of` results h (run_calls (dispatches h) s0).2).
  { subst returned. rewrite H1 at 1. apply results_take. }
  split; [by eapply Forall2_prefix|]. intros Hf.
  pose proof (lfinished_all _ _ _ _ _ _ _ _ Hroom Hx Hsc Hi Hf) as Hl.
  split; [by apply results_length|]. intros k e c Hin Hnr Ht Hu.
  assert (Huse : uses_one (dispatches h) k).
  { apply elem_of_list_lookup in Hin as [j Hj].
    destruct (Hsend e c) as [He Hs]; [exists (i, j); unfold task_call; cbn; by rewrite Hh|].
    destruct (makes_built e c He Hs Hnr) as (b & Hbd & _).
    exists (Call e (into_request b) []). split; [|by eapply touches_uses].
    eapply elem_of_list_lookup_2. by eapply dispatch_place. }
  rewrite (H2 ltac:(apply Hf) k Huse Hu), Hl, firstn_all, (E2 k Huse). by rewrite Hag2.
Qed.

(** ** C96 *)

Lemma counts_one_built e c k b : env_ok e -> counts_one c k -> build e c = ROk b ->
  adds_int (Call e (into_request b) []) k 1.
Proof.
  intros He Hc Hb.
  assert (Hs : (sends c <= 255)%N) by (destruct Hc as [->|[->|[->|[->| ->]]]]; cbn; lia).
  pose proof (build_asks e c b He Hs Hb) as Ha.
  assert (E : i64_enc 1 = i64_enc 1 ++ []) by by rewrite app_nil_r.
  destruct Hc as [->|[->|[->|[->| ->]]]]; cbn [request_of] in Ha; eexists _, _, _;
    (split; [exact Ha|]).
  1,2: left; repeat split; [done|]; by exists [].
  all: right; right; exists 1%Z, [], []; cbn [value_args default]; rewrite <-E; split; [done|];
    split; [done|]; by left.
Qed.

Lemma finish_int e c k z r : counts_one c k -> i64_range z -> responds e [] (VInteger z) r ->
  finish e c r = ROk (RpValue (VInteger z)).
Proof.
  intros Hc Hz Hr. pose proof (sound_int z Hz) as Hv. pose proof Hv as (Hwf & Hl & _).
  destruct Hr as [(msg & -> & Hf)|(_ & Hn & _)]; [|done].
  unfold finish, received. cbn [app] in *. rewrite (Hf Hl (debug e) Hwf (sound_decodable _ _ Hv)).
  by destruct Hc as [->|[->|[->|[->| ->]]]].
Qed.

Lemma counts_one_refused c k : counts_one c k -> k <> [] -> refused c = None.
Proof.
  intros Hc Hk. assert (is_empty k = false).
  { unfold is_empty. destruct k; [done|]. rewrite lenN_cons. lia. }
  destruct Hc as [->|[->|[->|[->| ->]]]]; cbn; by rewrite ?H.
Qed.

Lemma c96 sh tasks k s0 z0 sched x :
  tasks_fit tasks s0 -> sendable tasks -> ordinary k -> k <> [] ->
  st_keys s0 !! k = Some (VInteger z0) ->
  i64_range z0 -> i64_range (z0 + Z.of_nat (length (concat tasks))) ->
  (forall e c, made_by_one tasks e c -> counts_one c k \/ ~ changes c k) ->
  at_work sh tasks s0 sched = Some x ->
  exists out : list (nat * nat), NoDup out /\
  (forall a, a ∈ out -> exists e c, task_call tasks a = Some (e, c) /\ counts_one c k) /\
  (forall a e c r, task_call tasks a = Some (e, c) -> counts_one c k -> got tasks x a r ->
     exists i, out !! i = Some a /\ r = ROk (RpValue (VInteger (z0 + 1 + Z.of_nat i)))) /\
  (forall i j a b, out !! i = Some a -> out !! j = Some b ->
     earlier sh tasks s0 sched a b -> i < j) /\
  (unlocked sh x k -> st_keys x.2 !! k = Some (VInteger (z0 + Z.of_nat (length out)))).
Proof.
  intros Hfit Hsend Hk Hne H0 Hz Hz' Hcalls Hx.
  pose proof (dispatches_concat tasks) as Hdl.
  destruct (c86_locked sh k (map dispatches tasks) s0 z0 sched x) as (out & Hnd & Hin & Hret & Hord & Hend);
    try done.
  - by apply fit_room.
  - unfold i64_range, i64_half in *. lia.
  - intros d [b Hd]. destruct (call_at_tasks _ _ _ Hd) as (a & e & c & bl & _ & Hc & Hb & ->).
    assert (Hm : made_by_one tasks e c) by by eexists. destruct (Hsend _ _ Hm) as [He Hl].
    destruct (Hcalls _ _ Hm) as [Hone|Hno].
    + left. split; [done|]. by eapply counts_one_built.
    + right. intros Hw. apply Hno. by eapply may_write_changes.
  - destruct (places_back tasks out) as [out' HF].
    { intros b Hb. destruct (Hin b Hb) as (d & Hd & _). by exists d. }
    assert (Hlo : length out' = length out) by by eapply Forall2_length.
    assert (Hol : length out <= length (concat (map dispatches tasks))).
    { rewrite <-all_calls_length. apply submseteq_length, NoDup_submseteq; [done|].
      intros b Hb. destruct (Hin b Hb) as (d & Hd & _). by eapply all_calls_in. }
    exists out'. split_and!.
    + by eapply places_nodup.
    + intros a [i Hi]%elem_of_list_lookup.
      destruct (Forall2_lookup_l _ _ _ _ _ HF Hi) as (b & Hb & Hs).
      destruct (Hin b ltac:(by eapply elem_of_list_lookup_2)) as (d & Hd & Hadd).
      destruct (call_at_tasks _ _ _ Hd) as (a' & e & c & bl & Hs' & Hc & Hbd & ->).
      pose proof (same_place_inj _ _ _ _ Hs Hs') as ->. exists e, c. split; [done|].
      assert (Hm : made_by_one tasks e c) by by eexists. destruct (Hsend _ _ Hm) as [He Hl].
      destruct (Hcalls _ _ Hm) as [Hone|Hno]; [done|]. exfalso. apply Hno.
      eapply may_write_changes; [done|done|exact Hbd|]. exact (adds_int_writes _ _ _ Hadd).
    + intros a e c r Hc Hone Hg.
      assert (Hm : made_by_one tasks e c) by by eexists. destruct (Hsend _ _ Hm) as [He Hl].
      destruct (makes_built e c He Hl (counts_one_refused _ _ Hone Hne)) as (bl & Hbd & _).
      destruct (tasks_call_at _ _ _ _ _ Hc Hbd) as (b & Hs & Hd).
      destruct (got_returned _ _ _ _ _ _ _ Hs Hc Hg) as (q & Hq & ->).
      destruct (Hret b _ q Hd (counts_one_built _ _ _ _ He Hone Hbd) Hq) as (i & Hi & Hresp).
      destruct (Forall2_lookup_r _ _ _ _ _ HF Hi) as (a' & Ha' & Hs').
      pose proof (same_place_inj _ _ _ _ Hs Hs') as <-. exists i. split; [done|].
      eapply finish_int; [done| |exact Hresp].
      apply lookup_lt_Some in Hi. unfold i64_range, i64_half in *. lia.
    + intros i j a a' Hi Hj He.
      destruct (Forall2_lookup_l _ _ _ _ _ HF Hi) as (b & Hb & Hs).
      destruct (Forall2_lookup_l _ _ _ _ _ HF Hj) as (b' & Hb' & Hs').
      apply (Hord _ _ _ _ Hb Hb'). by eapply earlier_before.
    + intros Hu. rewrite Hlo. by apply Hend.
Qed.

(** ** C97 *)

Lemma delete_built e k b : env_ok e -> build e (KDelete k) = ROk b ->
  deletes (Call e (into_request b) []) k.
Proof.
  intros He Hb. pose proof (build_asks e (KDelete k) b He ltac:(done) Hb) as Ha. by exists [].
Qed.

Lemma c97 sh tasks k s0 v0 sched x :
  tasks_fit tasks s0 -> sendable tasks -> k <> [] -> (lenN k < 2 ^ 32 - 16)%N ->
  st_keys s0 !! k = Some v0 ->
  (forall e c, made_by_one tasks e c -> c = KDelete k \/ ~ changes c k) ->
  at_work sh tasks s0 sched = Some x ->
  exists won : option (nat * nat),
  (unlocked sh x k -> st_keys x.2 !! k = match won with None => Some v0 | Some _ => None end) /\
  (forall b, won = Some b -> exists e, task_call tasks b = Some (e, KDelete k)) /\
  (forall a e r, task_call tasks a = Some (e, KDelete k) -> got tasks x a r ->
     exists b, won = Some b /\ ~ earlier sh tasks s0 sched a b /\
       r = if decide (a = b) then ROk (RpBytes k) else RErr (CERunningCommand EPreconditionFailed)).
Proof.
  intros Hfit Hsend Hne Hlen H0 Hcalls Hx.
  destruct (c88_locked sh k (map dispatches tasks) s0 v0 sched x) as (won & Hend & Hwon & Hret);
    try done.
  - by apply fit_room.
  - intros d [b Hd]. destruct (call_at_tasks _ _ _ Hd) as (a & e & c & bl & _ & Hc & Hb & ->).
    assert (Hm : made_by_one tasks e c) by by eexists. destruct (Hsend _ _ Hm) as [He Hl].
    destruct (Hcalls _ _ Hm) as [->|Hno].
    + left. split; [done|]. by apply delete_built.
    + right. intros Hw. apply Hno. by eapply may_write_changes.
  - assert (Hback : exists won', match won', won with
      | Some a, Some b => same_place tasks a b /\ exists e, task_call tasks a = Some (e, KDelete k)
      | None, None => True | _, _ => False end).
    { destruct won as [b|]; [|by exists None]. destruct (Hwon b eq_refl) as (d & Hd & Hdel).
      destruct (call_at_tasks _ _ _ Hd) as (a & e & c & bl & Hs & Hc & Hb & ->).
      exists (Some a). split; [done|]. exists e. rewrite Hc. do 2 f_equal.
      assert (Hm : made_by_one tasks e c) by by eexists. destruct (Hsend _ _ Hm) as [He Hl].
      destruct (Hcalls _ _ Hm) as [->|Hno]; [done|]. exfalso. apply Hno.
      eapply may_write_changes; [done|done|exact Hb|].
      destruct Hdel as (r & Hcm & _ & Hca). cbn [c_req] in *. split; [by rewrite Hcm|].
      unfold names. left. rewrite (carried_arg _ _ _ Hca). done. }
    destruct Hback as [won' Hback]. exists won'. split_and!.
    + intros Hu. rewrite (Hend Hu). by destruct won, won'.
    + intros a ->. destruct won as [b|]; [|done]. apply Hback.
    + intros a e r Hc Hg.
      assert (Hm : made_by_one tasks e (KDelete k)) by by eexists. destruct (Hsend _ _ Hm) as [He Hl].
      assert (Hr : refused (KDelete k) = None).
      { cbn. unfold is_empty. destruct k; [done|]. rewrite lenN_cons. by destruct (_ =? 0)%N eqn:?; [lia|]. }
      destruct (makes_built e _ He Hl Hr) as (bl & Hbd & _).
      destruct (tasks_call_at _ _ _ _ _ Hc Hbd) as (b & Hs & Hd).
      destruct (got_returned _ _ _ _ _ _ _ Hs Hc Hg) as (q & Hq & ->).
      destruct (Hret b _ q Hd (delete_built _ _ _ He Hbd) Hq) as (b' & -> & Hnb & Hres).
      destruct won' as [a'|]; [|done]. destruct Hback as [Hs' _]. exists a'. split; [done|]. split.
      { intros Hea. apply Hnb. by eapply earlier_before. }
      cbn [c_env c_res] in Hres. destruct (decide (b = b')) as [->|Hneq].
      * rewrite decide_True by by eapply same_place_inj.
        pose proof (sound_key k Hne Hlen) as Hv. pose proof Hv as (Hwf & Hlim & _).
        destruct Hres as [(msg & -> & Hf)|(_ & Hn & _)]; [|done].
        unfold finish, received. cbn [app] in *.
        by rewrite (Hf Hlim (debug e) Hwf (sound_decodable _ _ Hv)).
      * rewrite decide_False; [by subst q|]. intros ->. apply Hneq. by eapply same_place_fun.
Qed.
