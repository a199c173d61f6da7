(** Clients with keys of their own (C93, C94). *)
From Verif Require Import Locks LockSpec LockScripts LockScriptSpec LockScriptFacts.
From Verif Require Import Bytes BytesFacts Utf8 Float64 Value CommandId Request Response
  Metrics Prog Commands EngineSpec WireSpec RequestSpec RequestFacts HistorySpec ProgFacts
  CommandFacts SafeFacts EngineFacts EngineProps HistoryFacts Concurrent ConcSpec ConcFacts ConcProps
  Scripts LinSpec LinFacts KeyLinSpec KeyLin KeyLinFacts IsoSpec IsoFacts ScriptInv.
From stdpp Require Import gmap list.
From Coq Require Import NArith ZArith Lia.
From Coq Require Import ZifyBool ZifyNat ZifyN.

Lemma concat_length_le {A} (l : list (list A)) i x : l !! i = Some x -> length x <= length (concat l).
Proof.
  revert i. induction l as [|y l IH]; intros [|i]; cbn; try done; rewrite app_length.
  - intros [= ->]. lia.
  - intros H. apply IH in H. lia.
Qed.

Section iso.
  Context (scripts : list (list call)) (s0 : store) (i : nat) (sc : list call).
  Hypothesis Hroom : room_for_all scripts s0.
  Hypothesis Hsc : scripts !! i = Some sc.
  Hypothesis Halone : alone_with_its_keys scripts i.

  Local Notation later n := (run_calls (take n sc) s0).

  Definition same_keys (s t : store) : Prop :=
    forall k, uses_one sc k -> st_keys s !! k = st_keys t !! k.

  Definition iso (w : option tstate) (n : nat) (s : store) : Prop :=
    match w with
    | None => same_keys s (later n).1
    | Some x => exists c q t, sc !! n = Some c /\
        psteps (command_prog (c_env c) (c_req c) (c_res c)) (later n).1 q t /\
        same_keys s t /\ within (uses (c_req c)) (may_write (c_req c)) False q /\
        (x = TRun q \/ exists r, q = PRet r /\ x = TDone r)
    end.

  Definition isoinv (vs : list view) (s : store) : Prop :=
    forall d w, vs !! i = Some (d, w) -> d = (later (length d)).2 /\ iso w (length d) s.

  Lemma iso_same w n s s' : (forall k, uses_one sc k -> st_keys s' !! k = st_keys s !! k) ->
    iso w n s -> iso w n s'.
  Proof.
    intros H. destruct w as [x|]; cbn [iso].
    - intros (c & q & t & H1 & H2 & H3 & H4 & H5). exists c, q, t. split_and!; try done.
      intros k Hk. rewrite H by done. by apply H3.
    - intros H1 k Hk. rewrite H by done. by apply H1.
  Qed.

  Lemma later_room n : n < length sc -> room (later n).1.
  Proof.
    intros Hn m. pose proof (run_calls_count (take n sc) s0 m) as H. specialize (Hroom m).
    pose proof (concat_length_le _ _ _ Hsc). unfold lenN in *. rewrite take_length in H. lia.
  Qed.

  Lemma own_call n c : sc !! n = Some c -> call_at scripts (i, n) = Some c.
  Proof. intros H. unfold call_at. cbn. by rewrite Hsc. Qed.

  Lemma iso_all sched x : sys_run sched (begin scripts s0) = Some x ->
    exists vs, rinv scripts s0 isoinv vs x.
  Proof.
    intros Hr. eapply scripts_inv; try done.
    - (* a call begins *)
      intros vs s j sc' c d HP Hj Hv Hc d' w Hv'. destruct (decide (j = i)) as [->|Hne].
      + rewrite list_lookup_insert in Hv' by (by eapply lookup_lt_Some). injection Hv' as <- <-.
        assert (sc' = sc) as -> by congruence. destruct (HP _ _ Hv) as [H1 H2]. split; [done|].
        exists c, (command_prog (c_env c) (c_req c) (c_res c)), (later (length d)).1.
        split; [done|]. split; [apply psteps_refl|]. split; [done|]. split; [|by left].
        eapply within_weaken; [|apply command_within]. intros E.
        by apply (proj1 Halone _ _ (own_call _ _ Hc)).
      + rewrite list_lookup_insert_ne in Hv' by done. by apply HP.
    - (* a step of a command *)
      intros vs s j sc' c d q q' s' HP Hj Hv Hc Hq Hwi Hs d' w Hv'.
      destruct (decide (j = i)) as [->|Hne].
      + rewrite list_lookup_insert in Hv' by (by eapply lookup_lt_Some). injection Hv' as <- <-.
        assert (sc' = sc) as -> by congruence.
        destruct (HP _ _ Hv) as [H1 (c' & q1 & t & E1 & E2 & E3 & E4 & [[= <-]|(r & -> & ?)])]; [|done].
        assert (c' = c) as -> by congruence.
        assert (Hsub : forall k, uses (c_req c) k -> uses_one sc k).
        { intros k Hk. exists c. split; [by eapply elem_of_list_lookup_2|done]. }
        destruct (within_agree (uses_one sc) (may_write (c_req c)) q s t q' s') as (t' & Ht & Hag).
        * intros k Hk. by apply Hsub, may_write_uses.
        * by eapply within_weaken_all; [exact Hsub| | |exact E4].
        * done.
        * done.
        * done.
        * split; [done|]. exists c, q', t'. split; [done|]. split; [by eapply psteps_snoc|].
          split; [done|]. split; [|by left]. by eapply within_pstep.
      + rewrite list_lookup_insert_ne in Hv' by done. destruct (HP _ _ Hv') as [H1 H2].
        split; [done|]. eapply iso_same; [|exact H2]. intros k (c1 & Hc1 & Hk).
        destruct (within_pstep _ _ _ _ _ _ _ Hwi Hs) as [_ Hf]. apply Hf.
        apply elem_of_list_lookup in Hc1 as [n Hn].
        apply (proj2 Halone n j (length d) c1 c k); [by apply own_call| |done|done].
        unfold call_at. cbn. by rewrite Hj.
    - (* the counter *)
      intros vs s j sc' c d r s' HP Hj Hv Hc Hnp Hk _ d' w Hv'.
      destruct (decide (j = i)) as [->|Hne].
      + rewrite list_lookup_insert in Hv' by (by eapply lookup_lt_Some). injection Hv' as <- <-.
        destruct (HP _ _ Hv) as [H1 (c' & q1 & t & E1 & E2 & E3 & E4 & [[= <-]|(r' & -> & ?)])]; [|done].
        split; [done|]. exists c', (PRet r), t. split_and!; try done; [|right; by exists r].
        intros k Hk'. rewrite Hk. by apply E3.
      + rewrite list_lookup_insert_ne in Hv' by done. destruct (HP _ _ Hv') as [H1 H2].
        split; [done|]. eapply iso_same; [|exact H2]. intros k _. by rewrite Hk.
    - (* a call returns *)
      intros vs s j sc' c d x1 r HP Hj Hv Hc Hx d' w Hv'. destruct (decide (j = i)) as [->|Hne].
      + rewrite list_lookup_insert in Hv' by (by eapply lookup_lt_Some). injection Hv' as <- <-.
        assert (sc' = sc) as -> by congruence.
        destruct (HP _ _ Hv) as [H1 (c' & q1 & t & E1 & E2 & E3 & E4 & E5)].
        assert (c' = c) as -> by congruence.
        assert (q1 = PRet r) as ->.
        { destruct Hx as [->|[-> ->]].
          - destruct E5 as [?|(r' & -> & [= <-])]; done.
          - destruct E5 as [[= <-]|(r' & -> & ?)]; done. }
        apply run_psteps_same in E2. cbn [run] in E2.
        assert (Hlt : length d < length sc) by (by eapply lookup_lt_Some).
        destruct (dispatch_cmd (c_env c) (later (length d)).1 (c_req c) (c_res c)) as [D1 D2];
          [by apply later_room|]. rewrite <-E2 in D1, D2. cbn [fst snd] in D1, D2.
        cbn [iso]. unfold same_keys. rewrite app_length. cbn [length]. rewrite Nat.add_1_r, (take_S_r _ _ c) by done.
        rewrite run_calls_snoc. cbn [fst snd]. split.
        * by rewrite D1, <-H1.
        * intros k Hk. rewrite D2. by apply E3.
      + rewrite list_lookup_insert_ne in Hv' by done. by apply HP.
    - (* the beginning *)
      intros d w Hv. change (map ?f scripts) with (f <$> scripts) in Hv.
      rewrite list_lookup_fmap, Hsc in Hv. injection Hv as <- <-. done.
  Qed.
End iso.

Lemma c93 scripts s0 i sc sched x cl :
  room_for_all scripts s0 -> scripts !! i = Some sc -> alone_with_its_keys scripts i ->
  sys_run sched (begin scripts s0) = Some x -> x.1 !! i = Some cl ->
  let alone := run_calls (take (length (cl_done cl)) sc) s0 in
  cl_done cl = alone.2 /\
  (cl_now cl = None -> forall k, uses_one sc k -> st_keys x.2 !! k = st_keys alone.1 !! k).
Proof.
  intros Hroom Hsc Ha Hr Hi. cbn zeta.
  destruct (iso_all scripts s0 i sc Hroom Hsc Ha sched x Hr) as (vs & Hl & Hlv & Hsh & _ & HP).
  assert (exists v, vs !! i = Some v) as [[d w] Hv].
  { apply lookup_lt_is_Some. rewrite Hlv. by eapply lookup_lt_Some. }
  destruct (Hsh _ _ _ _ Hi Hsc Hv) as (E1 & E2 & E3 & E4). cbn [fst snd] in *.
  destruct (HP _ _ Hv) as [F1 F2]. rewrite E1. split; [done|]. intros Hn.
  destruct w as [y|]; [|done]. destruct E4 as (c & _ & E4 & _). congruence.
Qed.

(** ** Everybody has keys of their own (C94) *)

Lemma run_calls_unwritten h k : forall s, room_for h s -> (forall c, c ∈ h -> ~ may_write (c_req c) k) ->
  st_keys (run_calls h s).1 !! k = st_keys s !! k.
Proof.
  induction h as [|c h IH] using rev_ind; intros s Hs Hw; [done|].
  rewrite run_calls_snoc. cbn [fst]. rewrite keeps_unwritten.
  - apply IH.
    + intros m. specialize (Hs m). unfold lenN in *. rewrite app_length in Hs. lia.
    + intros d Hd. apply Hw, elem_of_app. by left.
  - apply Hw, elem_of_app. right. by apply elem_of_list_singleton.
  - intros m. specialize (Hs m). pose proof (run_calls_count h s m). unfold lenN in *.
    rewrite app_length in Hs. cbn in Hs. lia.
Qed.

Lemma run_calls_agree h : forall s t, room_for h s -> room_for h t ->
  (forall c, c ∈ h -> r_command (c_req c) <> CStats) ->
  (forall k, uses_one h k -> st_keys s !! k = st_keys t !! k) ->
  (run_calls h s).2 = (run_calls h t).2 /\
  forall k, uses_one h k -> st_keys (run_calls h s).1 !! k = st_keys (run_calls h t).1 !! k.
Proof.
  induction h as [|c h IH] using rev_ind; intros s t Hs Ht Hst Ha; [done|].
  rewrite !run_calls_snoc. cbn [fst snd].
  assert (Hsub : forall k, uses_one h k -> uses_one (h ++ [c]) k).
  { intros k (d & Hd & Hk). exists d. split; [|done]. apply elem_of_app. by left. }
  assert (Hroom : forall s, room_for (h ++ [c]) s -> room_for h s /\ room (run_calls h s).1).
  { intros s1 H1. split; intros m; specialize (H1 m); pose proof (run_calls_count h s1 m);
      unfold lenN in *; rewrite app_length in H1; cbn in H1; lia. }
  assert (Hun : forall k, (uses_one h k \/ uses (c_req c) k) ->
    st_keys (run_calls h s).1 !! k = st_keys (run_calls h t).1 !! k).
  { intros k Hk.
    destruct (Hroom s Hs) as [Rs1 Rs2], (Hroom t Ht) as [Rt1 Rt2].
    destruct (IH s t) as [_ H2]; [done..| |by intros; apply Ha, Hsub|].
    { intros d Hd. apply Hst, elem_of_app. by left. }
    destruct (decide (Exists (fun c => may_write (c_req c) k) h)) as [Hex|Hnex].
    - apply H2. apply Exists_exists in Hex as (d & Hd & Hw). exists d. split; [done|].
      by apply may_write_uses.
    - assert (Hnw : forall c, c ∈ h -> ~ may_write (c_req c) k).
      { intros d Hd Hw. apply Hnex, Exists_exists. eauto. }
      rewrite !run_calls_unwritten by done. apply Ha. destruct Hk as [Hk|Hk]; [by apply Hsub|].
      exists c. split; [|done]. apply elem_of_app. right. by apply elem_of_list_singleton. }
  destruct (Hroom s Hs) as [Rs1 Rs2], (Hroom t Ht) as [Rt1 Rt2].
  destruct (IH s t) as [H1 H2]; [done..| |by intros; apply Ha, Hsub|].
  { intros d Hd. apply Hst, elem_of_app. by left. }
  destruct (dispatch_agree c (run_calls h s).1 (run_calls h t).1) as [D1 D2]; [done..| | |].
  { apply Hst, elem_of_app. right. by apply elem_of_list_singleton. }
  { intros k Hk. apply Hun. by right. }
  rewrite H1, D1. split; [done|]. intros k Hk.
  destruct (decide (may_write (c_req c) k)) as [Hw|Hw].
  - apply D2. by apply may_write_uses.
  - rewrite !keeps_unwritten by done. apply Hun.
    destruct Hk as (d & [Hd| ->%elem_of_list_singleton]%elem_of_app & Hk); [left; by exists d|by right].
Qed.

Lemma in_script (l : list (list call)) i sc c : l !! i = Some sc -> c ∈ sc ->
  exists j, call_at l (i, j) = Some c.
Proof.
  intros Hi [j Hj]%elem_of_list_lookup. exists j. unfold call_at. cbn. by rewrite Hi.
Qed.

Lemma in_concat_script (l : list (list call)) c : c ∈ concat l -> exists ij, call_at l ij = Some c.
Proof.
  intros Hc. apply elem_of_list_In, in_concat in Hc as (sc & Hsc%elem_of_list_In & Hc%elem_of_list_In).
  apply elem_of_list_lookup in Hsc as [i Hi]. destruct (in_script _ _ _ _ Hi Hc) as [j Hj]. eauto.
Qed.

(** One client after the other. *)
Lemma seq_concat l s0 : room_for_all l s0 -> forall s,
  (forall m, (count s m + lenN (concat l) < 2 ^ 64)%N) ->
  (forall i, alone_with_its_keys l i) ->
  (forall c k, c ∈ concat l -> uses (c_req c) k -> st_keys s !! k = st_keys s0 !! k) ->
  (run_calls (concat l) s).2 = concat (map (fun sc => (run_calls sc s0).2) l) /\
  forall i sc k, l !! i = Some sc -> uses_one sc k ->
    st_keys (run_calls (concat l) s).1 !! k = st_keys (run_calls sc s0).1 !! k.
Proof.
  intros H0. induction l as [|sc l IH]; intros s Hs Hal Hag; [done|].
  cbn [concat map]. rewrite run_calls_app. cbn zeta. cbn [fst snd].
  assert (R1 : room_for sc s).
  { intros m. specialize (Hs m). unfold lenN in *. cbn [concat] in Hs. rewrite app_length in Hs. lia. }
  assert (R0 : room_for sc s0).
  { intros m. specialize (H0 m). unfold lenN in *. cbn [concat] in H0. rewrite app_length in H0. lia. }
  assert (R2 : room_for_all l s0).
  { intros m. specialize (H0 m). unfold lenN in *. cbn [concat] in H0. rewrite app_length in H0. lia. }
  assert (R3 : forall m, (count (run_calls sc s).1 m + lenN (concat l) < 2 ^ 64)%N).
  { intros m. specialize (Hs m). pose proof (run_calls_count sc s m). unfold lenN in *.
    cbn [concat] in Hs. rewrite app_length in Hs. lia. }
  assert (Hal' : forall i, alone_with_its_keys l i).
  { intros i. destruct (Hal (S i)) as [A1 A2]. split.
    - intros j c Hc. by apply (A1 j).
    - intros j i' j' c c' k Hc Hc' Hne Hu. apply (A2 j (S i') j' c c' k Hc Hc'); [lia|done]. }
  destruct (run_calls_agree sc s s0 R1 R0) as [E1 E2].
  { intros c [j Hj]%elem_of_list_lookup. by apply (proj1 (Hal 0) j). }
  { intros k (c & Hc & Hk). apply (Hag c k); [|done]. cbn. apply elem_of_app. by left. }
  assert (Hw1 : forall c k, c ∈ concat l -> uses (c_req c) k ->
    forall c', c' ∈ sc -> ~ may_write (c_req c') k).
  { intros c k Hc Hk c' [j' Hj']%elem_of_list_lookup.
    destruct (in_concat_script _ _ Hc) as [[i j] Hij].
    apply (proj2 (Hal (S i)) j 0 j' c c' k); [exact Hij|exact Hj'|done|done]. }
  destruct (IH R2 (run_calls sc s).1 R3 Hal') as [I1 I2].
  { intros c k Hc Hk. rewrite run_calls_unwritten; [|done|by eapply Hw1].
    apply (Hag c k); [|done]. cbn. apply elem_of_app. by right. }
  split; [by rewrite E1, I1|].
  intros [|i] sc' k Hi Hk.
  - injection Hi as <-. rewrite run_calls_unwritten; [by apply E2|done|].
    intros c' Hc' . destruct (in_concat_script _ _ Hc') as [[i' j'] Hij']. destruct Hk as (c & Hc & Hk).
    apply elem_of_list_lookup in Hc as [j Hj].
    apply (proj2 (Hal 0) j (S i') j' c c' k); [exact Hj|exact Hij'|done|done].
  - by eapply I2.
Qed.

(** A key nobody writes. *)
Lemma unwritten_stays scripts s0 k sched x : room_for_all scripts s0 ->
  (forall ij c, call_at scripts ij = Some c -> ~ may_write (c_req c) k) ->
  sys_run sched (begin scripts s0) = Some x -> st_keys x.2 !! k = st_keys s0 !! k.
Proof.
  intros Hroom Hw Hr.
  destruct (scripts_inv scripts s0 Hroom (fun _ s => st_keys s !! k = st_keys s0 !! k))
    with (sched := sched) (x := x) as (vs & _ & _ & _ & _ & H); try done.
  - intros vs s i sc c d q q' s' HP Hsc Hv Hc Hq Hwi Hs. rewrite <-HP.
    destruct (within_pstep _ _ _ _ _ _ _ Hwi Hs) as [_ Hf]. apply Hf.
    apply (Hw (i, length d)). unfold call_at. cbn. by rewrite Hsc.
  - intros vs s i sc c d r s' HP _ _ _ _ Hk _. by rewrite Hk.
Qed.

Lemma finished_all scripts s0 i sc sched x cl : room_for_all scripts s0 ->
  sys_run sched (begin scripts s0) = Some x ->
  scripts !! i = Some sc -> x.1 !! i = Some cl -> client_finished cl -> length (cl_done cl) = length sc.
Proof.
  intros Hroom Hr Hsc Hi [Hn Ht].
  destruct (scripts_inv scripts s0 Hroom (fun _ _ => True)) with (sched := sched) (x := x)
    as (vs & Hl & Hlv & Hsh & _); try done.
  assert (exists v, vs !! i = Some v) as [[d w] Hv].
  { apply lookup_lt_is_Some. rewrite Hlv. by eapply lookup_lt_Some. }
  destruct (Hsh _ _ _ _ Hi Hsc Hv) as (E1 & E2 & E3 & E4). unfold ahead_of in *. cbn [fst snd] in *.
  destruct w as [y|]; [destruct E4 as (c & _ & E4 & _); congruence|].
  rewrite Ht in E2. symmetry in E2. apply (f_equal length) in E2. rewrite drop_length in E2. cbn in E2.
  rewrite E1. lia.
Qed.

Lemma c94 scripts s0 sched x :
  room_for_all scripts s0 -> (forall i, alone_with_its_keys scripts i) ->
  sys_run sched (begin scripts s0) = Some x -> Forall client_finished x.1 ->
  let turns := run_calls (concat scripts) s0 in
  concat (map cl_done x.1) = turns.2 /\ st_keys x.2 = st_keys turns.1.
Proof.
  intros Hroom Hal Hr Hf turns.
  destruct (seq_concat scripts s0 Hroom s0 Hroom Hal) as [E1 E2]; [done|].
  assert (Hlen : length x.1 = length scripts).
  { destruct (scripts_inv scripts s0 Hroom (fun _ _ => True)) with (sched := sched) (x := x)
      as (vs & Hl & _); done. }
  assert (Hall : forall i sc cl, scripts !! i = Some sc -> x.1 !! i = Some cl ->
    cl_done cl = (run_calls sc s0).2 /\
    forall k, uses_one sc k -> st_keys x.2 !! k = st_keys (run_calls sc s0).1 !! k).
  { intros i sc cl Hsc Hi. pose proof (Forall_lookup_1 _ _ _ _ Hf Hi) as Hfi.
    destruct (c93 scripts s0 i sc sched x cl Hroom Hsc (Hal i) Hr Hi) as [H1 H2].
    rewrite (finished_all scripts s0 i sc sched x cl Hroom Hr Hsc Hi Hfi), firstn_all in H1, H2.
    split; [done|]. by apply H2, Hfi. }
  split.
  - subst turns. rewrite E1. f_equal. apply list_eq. intros i.
    change (map ?f ?l) with (f <$> l). rewrite !list_lookup_fmap.
    destruct (x.1 !! i) as [cl|] eqn:Hi.
    + assert (exists sc, scripts !! i = Some sc) as [sc Hsc].
      { apply lookup_lt_is_Some. rewrite <-Hlen. by eapply lookup_lt_Some. }
      rewrite Hsc. cbn. f_equal. by eapply Hall.
    + apply lookup_ge_None in Hi. rewrite (proj2 (lookup_ge_None _ _)) by lia. done.
  - apply map_eq. intros k.
    destruct (decide (Exists (fun c => may_write (c_req c) k) (concat scripts))) as [Hex|Hnex].
    + apply Exists_exists in Hex as (c & Hc & Hw). destruct (in_concat_script _ _ Hc) as [[i j] Hij].
      unfold call_at in Hij. cbn in Hij. destruct (scripts !! i) as [sc|] eqn:Hsc; [|done]. cbn in Hij.
      assert (Hu : uses_one sc k).
      { exists c. split; [by eapply elem_of_list_lookup_2|by apply may_write_uses]. }
      assert (exists cl, x.1 !! i = Some cl) as [cl Hi].
      { apply lookup_lt_is_Some. rewrite Hlen. by eapply lookup_lt_Some. }
      destruct (Hall i sc cl Hsc Hi) as [_ H2]. rewrite H2 by done. symmetry. by eapply E2.
    + assert (Hnw : forall c, c ∈ concat scripts -> ~ may_write (c_req c) k).
      { intros c Hc Hw. apply Hnex, Exists_exists. eauto. }
      rewrite (unwritten_stays scripts s0 k sched x) by (try done; intros [i j] c Hij; apply Hnw;
        by apply issued_concat; exists (i, j)).
      symmetry. by apply run_calls_unwritten.
Qed.

(** With locks. *)
Lemma c93_locked sh scripts s0 i sc lsched x cl :
  room_for_all scripts s0 -> scripts !! i = Some sc -> alone_with_its_keys scripts i ->
  lsys_run sh lsched (lbegin scripts s0) = Some x -> x.1 !! i = Some cl ->
  let alone := run_calls (take (length (lc_done cl)) sc) s0 in
  lc_done cl = alone.2 /\
  (lc_now cl = None -> forall k, uses_one sc k -> unlocked sh x k ->
     st_keys x.2 !! k = st_keys alone.1 !! k).
Proof.
  intros Hroom Hsc Ha Hr Hi. cbn zeta.
  destruct (lock_transfer _ _ _ _ _ Hr) as (sched & y & f & Hy & Hs & _).
  destruct (sinv_client _ _ _ _ _ Hs Hi) as (cl' & Hi' & Ed & Eb & _).
  destruct (c93 _ _ _ _ _ _ _ Hroom Hsc Ha Hy Hi') as [H1 H2]. rewrite <-Ed in H1, H2.
  split; [done|]. intros Hn k Hk Hu. rewrite (sinv_key _ _ _ _ Hs Hu). apply H2; [|done].
  unfold lbegun, begun in Eb. rewrite Hn, Ed in Eb. destruct (cl_now cl'); [lia|done].
Qed.

Lemma c94_locked sh scripts s0 lsched x :
  room_for_all scripts s0 -> (forall i, alone_with_its_keys scripts i) ->
  lsys_run sh lsched (lbegin scripts s0) = Some x -> Forall lfinished x.1 ->
  let turns := run_calls (concat scripts) s0 in
  concat (map lc_done x.1) = turns.2 /\ st_keys x.2 = st_keys turns.1.
Proof.
  intros Hroom Hal Hr Hf turns.
  destruct (lock_transfer _ _ _ _ _ Hr) as (sched & y & f & Hy & Hs & _).
  pose proof (sinv_clients _ _ _ Hs) as Hc.
  assert (Hfy : Forall client_finished y.1).
  { apply Forall_lookup. intros i cl' Hi'. destruct (Forall2_lookup_r _ _ _ _ _ Hc Hi') as (cl & Hi & Ed & Eb & Et).
    pose proof (Forall_lookup_1 _ _ _ _ Hf Hi) as [Hn Ht]. split; [|congruence].
    unfold lbegun, begun in Eb. rewrite Hn, Ed in Eb. destruct (cl_now cl'); [lia|done]. }
  destruct (c94 _ _ _ _ Hroom Hal Hy Hfy) as [H1 H2].
  assert (Hx : x.2 = y.2).
  { apply (sinv_free sh); [done|]. apply Forall_lookup. intros i cl Hi.
    pose proof (Forall_lookup_1 _ _ _ _ Hf Hi) as [Hn _]. unfold lfree, no_lock, lc_thread. by rewrite Hn. }
  rewrite Hx. split; [|done]. subst turns. rewrite <-H1. f_equal.
  clear -Hc. induction Hc as [|a b l l' (E & _) _ IH]; cbn; [done|]. by rewrite E, IH.
Qed.

(** ** For the examples *)

Lemma asks_uses req c kt l k : asks req c kt l -> uses req k -> k ∈ l.
Proof.
  intros (Hc & _ & _ & Ha) Hu.
  assert (H : exists i, arg req i = Some k).
  { unfold uses in Hu. destruct (r_command req); try done; destruct Hu; eauto. }
  destruct H as [i Hi]. rewrite Ha in Hi.
  by eapply elem_of_list_lookup_2.
Qed.

Lemma alone_by scripts (owner : bytes -> nat) :
  (forall i j c, call_at scripts (i, j) = Some c ->
     r_command (c_req c) <> CStats /\ forall k, uses (c_req c) k -> owner k = i) ->
  forall i, alone_with_its_keys scripts i.
Proof.
  intros H i. split.
  - intros j c Hc. by eapply H.
  - intros j i' j' c c' k Hc Hc' Hne Hu Hw%may_write_uses.
    destruct (H _ _ _ Hc) as [_ H1]. destruct (H _ _ _ Hc') as [_ H2].
    specialize (H1 k Hu). specialize (H2 k Hw). congruence.
Qed.
