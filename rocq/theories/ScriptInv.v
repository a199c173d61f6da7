(** A rule for proofs about clients that issue several commands. *)
From Verif Require Import Bytes BytesFacts Utf8 Float64 Value CommandId Request Response
  Metrics Prog Commands EngineSpec WireSpec RequestSpec RequestFacts HistorySpec ProgFacts
  CommandFacts SafeFacts EngineFacts EngineProps HistoryFacts Concurrent ConcSpec ConcFacts ConcProps
  Scripts LinSpec LinFacts KeyLinSpec KeyLin KeyLinFacts IsoSpec IsoFacts.
From stdpp Require Import gmap list.
From Coq Require Import NArith ZArith Lia.
From Coq Require Import ZifyBool ZifyNat ZifyN.

(** Where a client is: the outcomes so far and the running call. *)
Notation view := (list cres * option tstate)%type.

Definition ahead_of (v : view) : nat := length v.1 + match v.2 with Some _ => 1 | None => 0 end.

Definition shown (sc : list call) (v : view) (cl : client) : Prop :=
  cl_done cl = v.1 /\ cl_todo cl = drop (ahead_of v) sc /\ ahead_of v <= length sc /\
  match v.2 with
  | None => cl_now cl = None
  | Some x => exists c, sc !! length v.1 = Some c /\ cl_now cl = Some (tprog c x) /\ tquiet x /\
      forall q, x = TRun q -> within (uses (c_req c)) (may_write (c_req c)) (r_command (c_req c) = CStats) q
  end.

Definition vcredit (v : view) : N :=
  N.of_nat (length v.1 + match v.2 with Some (TDone _) => 1 | _ => 0 end).

Section rule.
  Context (scripts : list (list call)) (s0 : store).
  Hypothesis Hroom : room_for_all scripts s0.
  Context (P : list view -> store -> Prop).

  Hypothesis Pbegin : forall vs s i sc c d, P vs s -> scripts !! i = Some sc ->
    vs !! i = Some (d, None) -> sc !! length d = Some c -> P (<[i := (d, Some (tstart c))]> vs) s.
  Hypothesis Prun : forall vs s i sc c d q q' s', P vs s -> scripts !! i = Some sc ->
    vs !! i = Some (d, Some (TRun q)) -> sc !! length d = Some c -> quiet q ->
    within (uses (c_req c)) (may_write (c_req c)) (r_command (c_req c) = CStats) q ->
    pstep q s = Some (q', s') -> P (<[i := (d, Some (TRun q'))]> vs) s'.
  Hypothesis Pcount : forall vs s i sc c d r s', P vs s -> scripts !! i = Some sc ->
    vs !! i = Some (d, Some (TRun (PRet r))) -> sc !! length d = Some c -> r <> CPanic ->
    st_keys s' = st_keys s -> st_counters s' = cbump r (st_counters s) ->
    P (<[i := (d, Some (TDone r))]> vs) s'.
  Hypothesis Preturn : forall vs s i sc c d x r, P vs s -> scripts !! i = Some sc ->
    vs !! i = Some (d, Some x) -> sc !! length d = Some c ->
    (x = TDone r \/ (r = CPanic /\ x = TRun (PRet CPanic))) -> P (<[i := (d ++ [r], None)]> vs) s.

  Definition rinv (vs : list view) (x : system) : Prop :=
    length x.1 = length scripts /\ length vs = length scripts /\
    (forall i cl sc v, x.1 !! i = Some cl -> scripts !! i = Some sc -> vs !! i = Some v ->
       shown sc v cl) /\
    (forall m, (count x.2 m <= count s0 m + nsum (map vcredit vs))%N) /\ P vs x.2.

  Lemma vcredit_insert (vs : list view) i v v' : vs !! i = Some v ->
    (nsum (map vcredit (<[i := v']> vs)) + vcredit v = nsum (map vcredit vs) + vcredit v')%N.
  Proof.
    intros H. assert (E : map vcredit (<[i := v']> vs) = <[i := vcredit v']> (map vcredit vs))
      by apply list_fmap_insert.
    rewrite E. apply nsum_insert.
    transitivity (vcredit <$> vs !! i); [apply list_lookup_fmap|]. by rewrite H.
  Qed.

  Lemma vcredit_total vs : length vs = length scripts ->
    (forall i v sc, vs !! i = Some v -> scripts !! i = Some sc -> (vcredit v <= N.of_nat (length sc))%N) ->
    (nsum (map vcredit vs) <= lenN (concat scripts))%N.
  Proof.
    clear. revert scripts. induction vs as [|v vs IH]; intros [|sc l] Hl H; cbn; try done.
    assert (vcredit v <= N.of_nat (length sc))%N by (by apply (H 0)).
    assert (nsum (map vcredit vs) <= lenN (concat l))%N.
    { apply IH; [by injection Hl|]. intros i. by apply (H (S i)). }
    unfold lenN in *. rewrite app_length. lia.
  Qed.

  Lemma shown_insert (cls : list client) (vs : list view) i cl' sc v' :
    (forall i cl sc v, cls !! i = Some cl -> scripts !! i = Some sc -> vs !! i = Some v -> shown sc v cl) ->
    i < length cls -> i < length vs -> scripts !! i = Some sc -> shown sc v' cl' ->
    forall j cl sc v, <[i := cl']> cls !! j = Some cl -> scripts !! j = Some sc ->
      <[i := v']> vs !! j = Some v -> shown sc v cl.
  Proof.
    intros H H1 H2 Hsc Hs j cl sc' v Hj Hsj Hv. destruct (decide (i = j)) as [<-|Hne].
    - rewrite list_lookup_insert in Hj by done. rewrite list_lookup_insert in Hv by done. injection Hj as <-. injection Hv as <-.
      by assert (sc' = sc) as -> by congruence.
    - rewrite list_lookup_insert_ne in Hj by done. rewrite list_lookup_insert_ne in Hv by done. by eapply H.
  Qed.

  Lemma rinv_step vs x i y : rinv vs x -> sys_step i x = Some y -> exists vs', rinv vs' y.
  Proof.
    intros (Hl & Hlv & Hsh & Hcnt & HP) Hs. destruct x as [cls s]. cbn [fst snd] in *.
    unfold sys_step in Hs. cbn [fst snd] in Hs.
    destruct (cls !! i) as [cl|] eqn:Hi; [|done].
    destruct (client_step cl s) as [[cl' s']|] eqn:Hst; [|done]. injection Hs as <-.
    assert (Hilt : i < length cls) by (by eapply lookup_lt_Some).
    assert (Hivs : i < length vs) by lia.
    assert (exists sc, scripts !! i = Some sc) as [sc Hsc].
    { apply lookup_lt_is_Some. lia. }
    assert (exists v, vs !! i = Some v) as [[d w] Hv] by (by apply lookup_lt_is_Some).
    pose proof (Hsh _ _ _ _ Hi Hsc Hv) as (Hd & Ht & Hle & Hw). unfold ahead_of in Ht, Hle.
    cbn [fst snd] in Hd, Ht, Hle, Hw.
    assert (Hall : forall v' s', shown sc v' cl' ->
      (forall m, (count s' m <= count s0 m + nsum (map vcredit (<[i := v']> vs)))%N) ->
      P (<[i := v']> vs) s' -> exists vs', rinv vs' (<[i := cl']> cls, s')).
    { intros v' s1 H1 H2 H3. exists (<[i := v']> vs). split; [by cbn; rewrite insert_length|].
      split; [by rewrite insert_length|]. split; [|done]. cbn [fst]. by eapply shown_insert. }
    unfold client_step in Hst. destruct w as [x|].
    2: { rewrite Hw in Hst. rewrite Nat.add_0_r in Ht, Hle.
      destruct (cl_todo cl) as [|c rest] eqn:Htodo; [done|]. injection Hst as <- <-.
      symmetry in Ht.
      assert (Hc : sc !! length d = Some c).
      { pose proof (lookup_drop sc (length d) 0) as E. rewrite Ht in E. cbn in E.
        by rewrite Nat.add_0_r in E. }
      assert (Hrest : rest = drop (S (length d)) sc).
      { rewrite (drop_S _ c) in Ht by done. by injection Ht. }
      assert (Hlt : length d < length sc) by (by eapply lookup_lt_Some).
      apply (Hall (d, Some (tstart c))).
      - unfold shown, ahead_of. cbn [fst snd cl_done cl_todo cl_now].
        replace (length d + 1) with (S (length d)) by lia. split_and!; try done.
        exists c. split; [done|]. split; [done|]. split; [apply tstart_quiet|].
        intros q [= <-]. apply command_within.
      - intros m. specialize (Hcnt m). pose proof (vcredit_insert vs i _ (d, Some (tstart c)) Hv) as E.
        unfold vcredit at 2 4 in E. cbn [fst snd tstart] in E. lia.
      - by eapply Pbegin. }
    destruct Hw as (c & Hc & Hnow & Hq & Hwi). rewrite Hnow in Hst.
    assert (Hlt : length d < length sc) by (by eapply lookup_lt_Some).
    assert (Hret : (exists r, tprog c x = PRet r) \/ (forall r, tprog c x <> PRet r)).
    { destruct (tprog c x) as [r| | | | | | | |]; [left; by exists r|right; done..]. }
    destruct Hret as [[r Hr]|Hnr].
    - rewrite Hr in Hst. injection Hst as <- <-.
      apply (Hall (d ++ [r], None)).
      + unfold shown, ahead_of. cbn [fst snd cl_done cl_todo cl_now]. rewrite app_length. cbn [length].
        rewrite Hd, Ht. replace (length d + 1 + 0) with (length d + 1) by lia. done.
      + intros m. specialize (Hcnt m). pose proof (vcredit_insert vs i _ (d ++ [r], None) Hv) as E.
        unfold vcredit at 2 4 in E. cbn [fst snd] in E. rewrite app_length in E. cbn [length] in E.
        destruct x; lia.
      + eapply Preturn; try done. by eapply tprog_ret.
    - assert (Hst' : match pstep (tprog c x) s with
        | Some (p', s') => Some (Client (cl_done cl) (Some p') (cl_todo cl), s') | None => None end
        = Some (cl', s')).
      { destruct (tprog c x) as [r| | | | | | | |]; [by destruct (Hnr r)|done..]. }
      clear Hst. rewrite tstep_prog in Hst' by done.
      destruct (tstep c x s) as [[x' s1]|] eqn:Hts; [|done]. injection Hst' as <- <-.
      assert (Hshown : forall x1, tquiet x1 ->
        (forall q, x1 = TRun q -> within (uses (c_req c)) (may_write (c_req c)) (r_command (c_req c) = CStats) q) ->
        shown sc (d, Some x1) (Client (cl_done cl) (Some (tprog c x1)) (cl_todo cl))).
      { intros x1 H1 H2. unfold shown, ahead_of. cbn [fst snd cl_done cl_todo cl_now].
        split_and!; try done. by exists c. }
      destruct (tstep_run_cases _ _ _ _ _ Hts) as [(q & q' & -> & -> & Hp)|(r & -> & Hb)].
      + apply (Hall (d, Some (TRun q'))).
        * apply Hshown; [by eapply quiet_pstep|]. intros ? [= <-]. eapply within_pstep; [|done].
          by apply Hwi.
        * intros m. specialize (Hcnt m). pose proof (vcredit_insert vs i _ (d, Some (TRun q')) Hv) as E.
          unfold vcredit at 2 4 in E. cbn [fst snd] in E.
          rewrite (count_counters s1 s); [lia|]. by eapply quiet_keeps.
        * eapply Prun; try done. by apply Hwi.
      + assert (Hroom1 : forall m, (count s m + 1 < u64_mod)%N).
        { intros m. specialize (Hcnt m). specialize (Hroom m).
          assert (nsum (map vcredit (<[i := (d, Some (TDone r))]> vs)) <= lenN (concat scripts))%N.
          { apply vcredit_total; [by rewrite insert_length|]. intros j vj scj Hj Hscj.
            destruct (decide (i = j)) as [<-|Hne].
            - rewrite list_lookup_insert in Hj by done. injection Hj as <-.
              assert (scj = sc) as -> by congruence. unfold vcredit. cbn [fst snd]. lia.
            - rewrite list_lookup_insert_ne in Hj by done.
              assert (exists clj, cls !! j = Some clj) as [clj Hclj].
              { apply lookup_lt_is_Some. rewrite Hl. by eapply lookup_lt_Some. }
              destruct (Hsh _ _ _ _ Hclj Hscj Hj) as (_ & _ & Hlej & _).
              unfold vcredit, ahead_of in *. destruct (vj.2) as [[]|]; lia. }
          pose proof (vcredit_insert vs i _ (d, Some (TDone r)) Hv) as E.
          unfold vcredit at 2 4 in E. cbn [fst snd] in E. change u64_mod with (2 ^ 64)%N. lia. }
        assert (Hout : x' = TDone r /\ r <> CPanic /\ st_keys s1 = st_keys s /\
          st_counters s1 = cbump r (st_counters s) /\ forall m, (count s1 m <= count s m + 1)%N).
        { unfold bump in Hb. destruct r as [b|err b|]; [| |done].
          all: rewrite counters_inc_at in Hb by done; injection Hb as <- <-.
          all: split; [done|]; split; [done|]; split; [done|]; split; [done|];
            intros m; unfold count; cbn [st_counters].
          all: match goal with |- context [<[?k := _]> _] => destruct (decide (k = m)) as [<-|] end.
          all: rewrite ?lookup_insert, ?lookup_insert_ne by done; cbn; lia. }
        destruct Hout as (-> & Hnp & Hks & Hcs & Hc1).
        apply (Hall (d, Some (TDone r))).
        * by apply Hshown.
        * intros m. specialize (Hcnt m). specialize (Hc1 m).
          pose proof (vcredit_insert vs i _ (d, Some (TDone r)) Hv) as E.
          unfold vcredit at 2 4 in E. cbn [fst snd] in E. lia.
        * by eapply Pcount.
  Qed.

  Lemma rinv_run sched : forall vs x y, rinv vs x -> sys_run sched x = Some y -> exists vs', rinv vs' y.
  Proof.
    induction sched as [|i sched IH]; intros vs x y Hi Hr; cbn in Hr.
    - injection Hr as <-. by exists vs.
    - destruct (sys_step i x) as [z|] eqn:Hs; [|done].
      destruct (rinv_step _ _ _ _ Hi Hs) as [vs' Hi']. by eapply IH.
  Qed.

  Lemma scripts_inv sched x : P (map (fun _ => ([], None)) scripts) s0 ->
    sys_run sched (begin scripts s0) = Some x -> exists vs, rinv vs x.
  Proof.
    intros H0 Hr. eapply rinv_run; [|done]. split; [by cbn; rewrite map_length|].
    split; [by rewrite map_length|]. split; [|split; [|exact H0]].
    - intros i cl sc v Hi Hsc Hv. cbn in Hi.
      change (map ?f scripts) with (f <$> scripts) in Hi. change (map ?f scripts) with (f <$> scripts) in Hv.
      rewrite list_lookup_fmap, Hsc in Hi. rewrite list_lookup_fmap, Hsc in Hv. injection Hi as <-. injection Hv as <-.
      unfold shown, ahead_of. cbn. split_and!; try done. lia.
    - intros m. cbn [snd begin]. lia.
  Qed.
End rule.
