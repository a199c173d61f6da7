(** What Stats calls report while other calls are made: the proof of C119. *)
From Coq Require Import String.
From Verif Require Import Locks LockSpec LockScripts LockScriptSpec.
From Verif Require Import Bytes BytesFacts Utf8 Float64 Value CommandId Request Response
  Metrics Prog Commands EngineSpec WireSpec RequestSpec RequestFacts ResponseFacts HistorySpec ProgFacts
  CommandFacts SafeFacts EngineFacts EngineProps HistoryFacts Concurrent ConcSpec ConcFacts ConcProps
  Scripts LinSpec LinFacts KeyLinSpec KeyLin KeyLinFacts IsoSpec IsoFacts ScriptInv SetRaceSpec SetRaceFacts
  LockScriptFacts StatsRaceSpec.
From stdpp Require Import gmap list.
From Coq Require Import NArith ZArith Lia.
From Coq Require Import ZifyBool ZifyNat ZifyN.

Local Notation "⟦ l ⟧" := (lit l%string) (only parsing).

(** The reply of a Stats call that found these entries. *)
Definition put_entry (m : metric) (o : option N) (d : gmap bytes bytes) : gmap bytes bytes :=
  match o with Some n => <[metric_name m := i64_enc (Z.of_N n)]> d | None => d end.

Definition found (V : metric -> option N) (l : list metric) : gmap bytes bytes :=
  foldl (fun d m => put_entry m (V m) d) ∅ l.

Definition stats_out (c : call) (V : metric -> option N) : cres :=
  cres_of (write_map (c_env c) (c_res c) (found V stats_counters)).

Definition stats_at (c : call) (V : metric -> option N) (rd rest : list metric) : prog :=
  stats_loop rest (found V rd) (fun m => PRet (cres_of (write_map (c_env c) (c_res c) m))).

Lemma found_ext V V' l : (forall m, m ∈ l -> V m = V' m) -> found V l = found V' l.
Proof.
  unfold found. induction l as [|m l IH] using rev_ind; [done|]. intros H. rewrite !foldl_app. cbn.
  rewrite IH by (intros m' Hm'; apply H, elem_of_app; by left). f_equal. apply H, elem_of_app. right. by left.
Qed.

Lemma stats_prog c : r_command (c_req c) = CStats -> r_key_type (c_req c) = None -> forall V,
  command_prog (c_env c) (c_req c) (c_res c) = stats_at c V [] stats_counters.
Proof. intros H1 H2 V. unfold command_prog, cmd_stats. by rewrite H1, H2. Qed.

Lemma metric_names m m' : metric_name m = metric_name m' -> m = m'.
Proof. destruct m, m'; try done; vm_compute; discriminate. Qed.

Lemma found_entry V l m n : NoDup l -> m ∈ l -> n = default 0%N (V m) -> entry_is (found V l) (metric_name m) n.
Proof.
  unfold found. intros Hn Hm ->. revert Hn Hm. 
  assert (H : forall d, d !! metric_name m = None -> NoDup l -> m ∈ l ->
    entry_is (foldl (fun d m => put_entry m (V m) d) d l) (metric_name m) (default 0%N (V m))); [|by apply H, lookup_empty].
  assert (Hk : forall l d, m ∉ l -> foldl (fun d m => put_entry m (V m) d) d l !! metric_name m = d !! metric_name m).
  { clear. induction l as [|m' l IH]; intros d H; [done|]. apply not_elem_of_cons in H as [H1 H2]. cbn.
    rewrite IH by done. unfold put_entry. destruct (V m'); [|done]. apply lookup_insert_ne.
    intros E. by apply H1, metric_names. }
  induction l as [|m' l IH]; intros d Hd Hn Hm; [by apply elem_of_nil in Hm|].
  apply NoDup_cons in Hn as [Hn1 Hn2]. cbn. apply elem_of_cons in Hm as [<-|Hm].
  - unfold entry_is. rewrite Hk by done. unfold put_entry. destruct (V m) as [n|]; cbn.
    + rewrite lookup_insert. split; [done|]. by intros b [= <-].
    + rewrite Hd. split; [done|]. done.
  - apply IH; [|done|done]. unfold put_entry. destruct (V m') as [n|]; [|done]. rewrite lookup_insert_ne; [done|].
    intros E%metric_names. by subst.
Qed.

Lemma found_names V l k : is_Some (found V l !! k) -> exists m, m ∈ l /\ k = metric_name m.
Proof.
  unfold found. induction l as [|m l IH] using rev_ind; [by intros [? H]|]. rewrite foldl_app. cbn.
  unfold put_entry at 1. destruct (V m) as [n|].
  - destruct (decide (metric_name m = k)) as [<-|Hne].
    + intros _. exists m. split; [|done]. apply elem_of_app. right. by left.
    + rewrite lookup_insert_ne by done. intros H. destruct (IH H) as (m' & H1 & H2). exists m'. split; [|done].
      apply elem_of_app. by left.
  - intros H. destruct (IH H) as (m' & H1 & H2). exists m'. split; [|done]. apply elem_of_app. by left.
Qed.

Section stats.
  Context (scripts : list (list call)) (s0 : store).
  Hypothesis Hbound : forall m, (count s0 m + lenN (concat scripts) < 2 ^ 63)%N.

  Local Notation nn := (nat * nat)%type.
  Local Notation nows := (nn -> option tstate).

  (** The counter has counted call [b]. *)
  Definition counted_now (now : nows) (m : metric) (b : nn) : Prop :=
    exists r, now b = Some (TDone r) /\ adds_to m r.

  (** What Stats call [a] read in counter [m]: [V m a], when the calls [Ls m a] had been counted. *)
  Definition good (bf : nn -> nn -> Prop) (now : nows) (V : metric -> nn -> option N)
    (Ls : metric -> nn -> list nn) (m : metric) (a : nn) : Prop :=
    default 0%N (V m a) = (count s0 m + lenN (Ls m a))%N /\ NoDup (Ls m a) /\
    (forall b, b ∈ Ls m a -> counted_now now m b /\ b <> a /\ ~ bf a b) /\
    (forall b, bf b a -> counted_now now m b -> b ∈ Ls m a).

  Definition is_stats (a : nn) (c : call) : Prop :=
    call_at scripts a = Some c /\ r_command (c_req c) = CStats /\ r_key_type (c_req c) = None.

  (** [L m]: the calls counted so far.  [rd a]: the counters that Stats call [a] has read. *)
  Definition J (bf : nn -> nn -> Prop) (now : nows) (s : store) : Prop :=
    (forall a b, bf a b -> exists r, now a = Some (TDone r)) /\
    (forall b x, now b = Some x -> is_Some (call_at scripts b)) /\
    exists (L : metric -> list nn) (V : metric -> nn -> option N) (Ls : metric -> nn -> list nn)
      (rd : nn -> list metric),
    (forall m, NoDup (L m) /\ count s m = (count s0 m + lenN (L m))%N /\
       forall b, b ∈ L m <-> counted_now now m b) /\
    (forall a, now a = None -> rd a = []) /\
    (forall a m, m ∈ rd a -> good bf now V Ls m a) /\
    (forall a c, is_stats a c ->
       match now a with
       | None => True
       | Some (TRun q) => exists rest, stats_counters = rd a ++ rest /\ q = stats_at c (fun m => V m a) (rd a) rest
       | Some (TDone r) => r = stats_out c (fun m => V m a) /\ rd a = stats_counters
       end) /\
    (forall m a b, bf a b -> m ∈ rd a -> m ∈ rd b -> Ls m a ⊆ Ls m b).

  Lemma good_ext (bf bf' : nn -> nn -> Prop) now now' (V V' : metric -> nn -> option N) (Ls Ls' : metric -> nn -> list nn) m a :
    (forall b, counted_now now m b <-> counted_now now' m b) ->
    (forall b, bf a b -> bf' a b) -> (forall b, bf' a b -> counted_now now m b -> bf a b) ->
    (forall b, bf b a <-> bf' b a) ->
    V m a = V' m a -> Ls m a = Ls' m a -> good bf now V Ls m a -> good bf' now' V' Ls' m a.
  Proof.
    intros Hc Hb1 Hb2 Hb3 HV HL (G1 & G2 & G3 & G4). unfold good. rewrite <-HV, <-HL. split_and!; try done.
    - intros b Hb. destruct (G3 b Hb) as (A & B & C). split; [by apply Hc|]. split; [done|].
      intros H. by apply C, Hb2.
    - intros b Hb Hcb. apply G4; [by apply Hb3|by apply Hc].
  Qed.

  Lemma counted_ext now now' m : (forall ij, now ij = now' ij) ->
    forall b, counted_now now m b <-> counted_now now' m b.
  Proof. intros E b. unfold counted_now. by rewrite E. Qed.

  Lemma Jext bf now now' s : (forall ij, now ij = now' ij) -> J bf now s -> J bf now' s.
  Proof.
    intros E (H1 & H2 & L & V & Ls & rd & A & B & C & D & F). split; [intros a b; rewrite <-E; apply H1|].
    split; [intros b x; rewrite <-E; apply H2|]. exists L, V, Ls, rd. split_and!; try done.
    - intros m. destruct (A m) as (A1 & A2 & A3). split_and!; try done. intros b. rewrite A3. by apply counted_ext.
    - intros a. rewrite <-E. apply B.
    - intros a m Hm. eapply good_ext; [by apply counted_ext|..|by apply C]; done.
    - intros a c Hs. rewrite <-E. by apply D.
  Qed.

  Lemma Jmore (bf bf' : nn -> nn -> Prop) now s :
    (forall a b, bf a b -> bf' a b) ->
    (forall a b, bf' a b -> bf a b \/ ((exists r, now a = Some (TDone r)) /\ now b = None)) ->
    J bf now s -> J bf' now s.
  Proof.
    intros E0 E (H1 & H2 & L & V & Ls & rd & A & B & C & D & F). split.
    { intros a b [Hb|[Ha _]]%E; [by eapply H1|done]. }
    split; [done|]. exists L, V, Ls, rd. split_and!; try done.
    - intros a m Hm. eapply good_ext; [..|by apply C]; try done.
      + intros b. apply E0.
      + intros b [Hb|[_ Hb]]%E; [done|]. intros (r & Hr & _). congruence.
      + intros b. split; [apply E0|]. intros [Hb|[_ Hb]]%E; [done|]. rewrite (B a Hb) in Hm. by apply elem_of_nil in Hm.
    - intros m a b [Hb|[_ Hb]]%E; [by apply F|]. intros _ Hm. rewrite (B b Hb) in Hm. by apply elem_of_nil in Hm.
  Qed.

  (** A call that moves on and is not counted yet. *)
  Lemma counted_run now ij q m b : (forall r, now ij <> Some (TDone r)) ->
    counted_now (upd now ij (TRun q)) m b <-> counted_now now m b.
  Proof.
    intros Hn. unfold counted_now, upd. destruct (decide (b = ij)) as [->|]; [|done].
    split; intros (r & H & _); [done|]. by destruct (Hn r).
  Qed.

  Lemma Jbegin bf now s ij c : J bf now s -> call_at scripts ij = Some c -> now ij = None ->
    J bf (upd now ij (tstart c)) s.
  Proof.
    intros (H1 & H2 & L & V & Ls & rd & A & B & C & D & F) Hc Hn.
    assert (Hcn : forall m b, counted_now (upd now ij (tstart c)) m b <-> counted_now now m b).
    { intros m b. apply counted_run. by rewrite Hn. }
    split; [|split].
    - intros a b Hb. destruct (H1 a b Hb) as [r Hr]. exists r. unfold upd. rewrite decide_False; [done|]. intros ->. congruence.
    - intros b x. unfold upd. destruct (decide (b = ij)) as [->|]; [by eauto|apply H2].
    - exists L, V, Ls, rd. split_and!; try done.
      + intros m. destruct (A m) as (A1 & A2 & A3). split_and!; try done. intros b. by rewrite Hcn.
      + intros a. unfold upd. destruct (decide (a = ij)); [done|apply B].
      + intros a m Hm. eapply good_ext; [..|by apply C]; try done; intros b; by rewrite Hcn.
      + intros a c' Hs. unfold upd. destruct (decide (a = ij)) as [->|]; [|by apply D].
        destruct Hs as (Hs & Hs2 & Hs3). assert (c' = c) as -> by congruence.
        exists stats_counters. rewrite (B ij Hn). split; [done|]. by apply stats_prog.
  Qed.

  Lemma calls_bound (l : list nn) : NoDup l -> (forall b, b ∈ l -> is_Some (call_at scripts b)) ->
    (lenN l <= lenN (concat scripts))%N.
  Proof.
    intros Hn Hl. assert (length l <= length (concat scripts)); [|unfold lenN; lia].
    rewrite <-all_calls_length. apply submseteq_length, NoDup_submseteq; [done|].
    intros b Hb. destruct (Hl b Hb) as [c Hc]. by eapply all_calls_in.
  Qed.

  Lemma Jstep bf now s s' ij c q q' : J bf now s -> call_at scripts ij = Some c ->
    now ij = Some (TRun q) -> quiet q -> pstep q s = Some (q', s') -> J bf (upd now ij (TRun q')) s'.
  Proof.
    intros (H1 & H2 & L & V & Ls & rd & A & B & C & D & F) Hc Hn Hq Hst.
    assert (Hcn : forall m b, counted_now (upd now ij (TRun q')) m b <-> counted_now now m b).
    { intros m b. apply counted_run. by rewrite Hn. }
    assert (Hcnt : forall m, count s' m = count s m).
    { intros m. apply count_counters. by eapply quiet_keeps. }
    assert (Hbf : forall b, ~ bf ij b).
    { intros b Hb. destruct (H1 _ _ Hb) as [r Hr]. congruence. }
    split; [|split].
    { intros a b Hb. destruct (H1 a b Hb) as [r Hr]. exists r. unfold upd. rewrite decide_False; [done|]. intros ->. congruence. }
    { intros b x. unfold upd. destruct (decide (b = ij)) as [->|]; [by eauto|apply H2]. }
    assert (HA : forall m, NoDup (L m) /\ count s' m = (count s0 m + lenN (L m))%N /\
      forall b, b ∈ L m <-> counted_now (upd now ij (TRun q')) m b).
    { intros m. destruct (A m) as (A1 & A2 & A3). rewrite Hcnt. split_and!; try done. intros b. by rewrite Hcn. }
    assert (HB : forall a, upd now ij (TRun q') a = None -> now a = None).
    { intros a. unfold upd. destruct (decide (a = ij)); done. }
    destruct (decide (r_command (c_req c) = CStats /\ r_key_type (c_req c) = None)) as [[Hs1 Hs2]|Hns].
    2: { exists L, V, Ls, rd. split_and!; try done.
      + intros a Ha. by apply B, HB.
      + intros a m Hm. eapply good_ext; [..|by apply C]; try done; intros b; by rewrite Hcn.
      + intros a c' Hs. unfold upd. destruct (decide (a = ij)) as [->|]; [|by apply D].
        destruct Hs as (Hs & Hs2 & Hs3). assert (c' = c) as -> by congruence. by destruct Hns. }
    pose proof (D ij c (conj Hc (conj Hs1 Hs2))) as HD. rewrite Hn in HD. destruct HD as (rest & Hr & ->).
    destruct rest as [|m0 rest]; [done|]. unfold stats_at in Hst. cbn [stats_loop pstep] in Hst. injection Hst as Hq' <-.
    set (o := st_counters s !! m0).
    set (V' := fun m a => if decide (m = m0 /\ a = ij) then o else V m a).
    set (Ls' := fun m a => if decide (m = m0 /\ a = ij) then L m0 else Ls m a).
    set (rd' := fun a => if decide (a = ij) then rd ij ++ [m0] else rd a).
    assert (Hm0 : m0 ∉ rd ij).
    { assert (Hnd : NoDup stats_counters) by (unfold stats_counters; repeat constructor; set_solver).
      rewrite Hr in Hnd. apply NoDup_app in Hnd as (_ & Hnd & _). intros Hin. apply (Hnd _ Hin). by left. }
    assert (HVn : forall m a, m ∈ rd a -> V' m a = V m a /\ Ls' m a = Ls m a).
    { intros m a Hm. unfold V', Ls'. rewrite !decide_False; [done|..]; intros [-> ->]; done. }
    assert (HV0 : V' m0 ij = o /\ Ls' m0 ij = L m0) by (unfold V', Ls'; by rewrite !decide_True).
    destruct (A m0) as (A1 & A2 & A3).
    assert (Hlt : forall n, o = Some n -> (Z.of_N n <? i64_half)%Z = true).
    { intros n Ho. assert (Hb := calls_bound (L m0) A1). specialize (Hbound m0).
      assert (count s m0 = n) as <- by (unfold count; fold o; by rewrite Ho).
      apply Z.ltb_lt. unfold i64_half. change (2 ^ 63)%N with 9223372036854775808%N in Hbound.
      assert (lenN (L m0) <= lenN (concat scripts))%N; [|lia]. apply Hb.
      intros b (r & Hbr & _)%A3. by eapply H2. }
    exists L, V', Ls', rd'. split_and!; [done|..].
    - intros a Ha. unfold rd'. rewrite decide_False; [by apply B, HB|]. intros ->. unfold upd in Ha. by rewrite decide_True in Ha.
    - intros a m Hm. unfold rd' in Hm. destruct (decide (a = ij)) as [->|Hne].
      + apply elem_of_app in Hm as [Hm|Hm%elem_of_list_singleton].
        * destruct (HVn m ij Hm) as [E1 E2]. eapply good_ext; [..|by apply C]; try done; intros b; by rewrite Hcn.
        * subst m. destruct HV0 as [E1 E2]. unfold good. rewrite E1, E2. split_and!; [exact A2|done|..].
          -- intros b Hb%A3. split; [by apply Hcn|]. split; [|apply Hbf]. intros ->. destruct Hb as (r & Hb & _). congruence.
          -- intros b _ Hb%Hcn. by apply A3.
      + destruct (HVn m a Hm) as [E1 E2]. eapply good_ext; [..|by apply C]; try done; intros b; by rewrite Hcn.
    - intros a c' Hs. unfold upd, rd'. destruct (decide (a = ij)) as [->|Hne].
      + destruct Hs as (Hs & _). assert (c' = c) as -> by congruence. exists rest. rewrite <-app_assoc. split; [done|].
        assert (Ef : found (fun m => V' m ij) (rd ij ++ [m0]) = put_entry m0 o (found (fun m => V m ij) (rd ij))).
        { unfold found. rewrite foldl_app. cbn [foldl]. destruct HV0 as [-> _]. f_equal.
          apply found_ext. intros m Hm. by apply HVn. }
        unfold stats_at. rewrite Ef. fold o in Hq'. destruct o as [n|]; cbn [put_entry]; [|done].
        rewrite (Hlt n eq_refl) in Hq'. done.
      + specialize (D a c' Hs). assert (EV : forall m, V' m a = V m a).
        { intros m. unfold V'. rewrite decide_False; [done|]. by intros [_ ?]. }
        destruct (now a) as [[qa|ra]|]; [|..|done].
        * destruct D as (ra & D1 & ->). exists ra. split; [done|]. unfold stats_at. f_equal. apply found_ext. intros m _. by rewrite EV.
        * destruct D as [-> D2]. split; [|done]. unfold stats_out. do 2 f_equal. apply found_ext. intros m _. by rewrite EV.
    - intros m a b Hb Ha Hm. assert (a <> ij) as Hne by (intros ->; by apply (Hbf b)).
      unfold rd' in Ha. rewrite decide_False in Ha by done. destruct (HVn m a Ha) as [_ ->].
      unfold rd' in Hm. destruct (decide (b = ij)) as [->|Hnb].
      + apply elem_of_app in Hm as [Hm|Hm%elem_of_list_singleton].
        * destruct (HVn m ij Hm) as [_ ->]. by eapply F.
        * subst m. destruct HV0 as [_ ->]. intros d Hd. destruct (C a m0 Ha) as (_ & _ & G & _).
          apply A3. by apply G.
      + destruct (HVn m b Hm) as [_ ->]. by eapply F.
  Qed.

  (** A call that is over, without having been counted just now. *)
  Lemma Jreturn bf now s ij c x r : J bf now s -> call_at scripts ij = Some c -> now ij = Some x ->
    (x = TDone r \/ (r = CPanic /\ x = TRun (PRet CPanic))) -> J bf (upd now ij (TDone r)) s.
  Proof.
    intros HJ Hc Hn [->|[-> ->]].
    { eapply Jext; [|exact HJ]. intros a. unfold upd. by destruct (decide (a = ij)) as [->|]. }
    destruct HJ as (H1 & H2 & L & V & Ls & rd & A & B & C & D & F).
    assert (Hcn : forall m b, counted_now (upd now ij (TDone CPanic)) m b <-> counted_now now m b).
    { intros m b. unfold counted_now, upd. destruct (decide (b = ij)) as [->|]; [|done].
      split; [intros (r & [= <-] & Hr); by destruct m|]. intros (r & Hr & _). congruence. }
    split; [|split].
    - intros a b Hb. destruct (H1 a b Hb) as [r Hr]. unfold upd. destruct (decide (a = ij)); eauto.
    - intros b x. unfold upd. destruct (decide (b = ij)) as [->|]; [by eauto|apply H2].
    - exists L, V, Ls, rd. split_and!; try done.
      + intros m. destruct (A m) as (A1 & A2 & A3). split_and!; try done. intros b. by rewrite Hcn.
      + intros a. unfold upd. destruct (decide (a = ij)); [done|apply B].
      + intros a m Hm. eapply good_ext; [..|by apply C]; try done; intros b; by rewrite Hcn.
      + intros a c' Hs. unfold upd. destruct (decide (a = ij)) as [->|]; [|by apply D].
        specialize (D ij c' Hs). rewrite Hn in D. destruct D as ([|m0 rest] & D1 & D2); [|done].
        rewrite app_nil_r in D1. unfold stats_at in D2. cbn [stats_loop] in D2. injection D2 as D2.
        split; [|done]. unfold stats_out. by rewrite D1.
  Qed.

  Lemma Jcount bf now s s' ij c r : J bf now s -> call_at scripts ij = Some c -> now ij = Some (TRun (PRet r)) ->
    r <> CPanic -> st_counters s' = cbump r (st_counters s) -> J bf (upd now ij (TDone r)) s'.
  Proof.
    intros (H1 & H2 & L & V & Ls & rd & A & B & C & D & F) Hc Hn Hr Hcs.
    assert (Hcn : forall m b, counted_now (upd now ij (TDone r)) m b <-> counted_now now m b \/ (b = ij /\ adds_to m r)).
    { intros m b. unfold counted_now, upd. destruct (decide (b = ij)) as [->|].
      - split; [intros (r' & [= <-] & Hr'); by right|]. intros [(r' & Hr' & _)|[_ Ha]]; [congruence|eauto].
      - split; [by left|]. by intros [?|[? _]]. }
    assert (Hni : forall m, ~ counted_now now m ij) by (intros m (r' & Hr' & _); congruence).
    assert (Hbf : forall b, ~ bf ij b).
    { intros b Hb. destruct (H1 _ _ Hb) as [r' Hr']. congruence. }
    assert (Had : forall m, Decision (adds_to m r)) by (intros m; destruct m, r; cbn; apply _).
    split; [|split].
    - intros a b Hb. destruct (H1 a b Hb) as [r' Hr']. unfold upd. destruct (decide (a = ij)); eauto.
    - intros b x. unfold upd. destruct (decide (b = ij)) as [->|]; [by eauto|apply H2].
    - exists (fun m => if Had m then L m ++ [ij] else L m), V, Ls, rd. split_and!.
      + intros m. destruct (A m) as (A1 & A2 & A3). destruct (Had m) as [Ha|Ha].
        * split_and!.
          -- apply NoDup_app. split; [done|]. split; [|apply NoDup_singleton].
             intros b Hb ->%elem_of_list_singleton. apply A3 in Hb. by destruct (Hni m).
          -- unfold count in *. rewrite Hcs. unfold lenN in *. rewrite app_length. cbn [length].
             destruct m, r; cbn in Ha; try done; cbn [cbump]; rewrite lookup_insert; cbn; cbn in A2; lia.
          -- intros b. rewrite elem_of_app, elem_of_list_singleton, A3, Hcn. naive_solver.
        * split_and!; [done|..].
          -- unfold count in *. rewrite Hcs, <-A2. destruct m, r; cbn in Ha; try done; cbn [cbump];
               try (by destruct Ha); try done; by rewrite lookup_insert_ne.
          -- intros b. rewrite A3, Hcn. naive_solver.
      + intros a. unfold upd. destruct (decide (a = ij)); [done|apply B].
      + intros a m Hm. destruct (C a m Hm) as (G1 & G2 & G3 & G4). split_and!; try done.
        * intros b Hb. destruct (G3 b Hb) as (Q1 & Q2 & Q3). split; [|done]. apply Hcn. by left.
        * intros b Hb [Hc'|[-> _]]%Hcn; [by apply G4|]. by destruct (Hbf a).
      + intros a c' Hs. unfold upd. destruct (decide (a = ij)) as [->|]; [|by apply D].
        specialize (D ij c' Hs). rewrite Hn in D. destruct D as ([|m0 rest] & D1 & D2); [|done].
        rewrite app_nil_r in D1. unfold stats_at in D2. cbn [stats_loop] in D2. injection D2 as D2.
        split; [|done]. unfold stats_out. by rewrite D1.
      + done.
  Qed.

  Lemma Jinit : J (fun _ _ => False) (fun _ => None) s0.
  Proof.
    split; [done|]. split; [done|]. exists (fun _ => []), (fun _ _ => None), (fun _ _ => []), (fun _ => []).
    split_and!; try done.
    - intros m. split; [constructor|]. split; [cbn; unfold lenN; cbn; lia|]. intros b.
      split; [by intros ?%elem_of_nil|]. by intros (r & ? & _).
    - by intros a m ?%elem_of_nil.
  Qed.

  Lemma room63 : room_for_all scripts s0.
  Proof.
    intros m. specialize (Hbound m). change (2 ^ 63)%N with 9223372036854775808%N in Hbound.
    change (2 ^ 64)%N with 18446744073709551616%N. lia.
  Qed.

  Definition JP (bf : nn -> nn -> Prop) (vs : list view) (s : store) : Prop := J bf (now_of vs) s.

  Lemma JP_begin bf vs s i sc c d : JP bf vs s -> scripts !! i = Some sc ->
    vs !! i = Some (d, None) -> sc !! length d = Some c -> JP bf (<[i := (d, Some (tstart c))]> vs) s.
  Proof.
    intros HP Hsc Hv Hc. unfold JP. eapply Jext; [intros ij; symmetry; by apply (now_of_step _ _ _ _ _ Hv)|].
    apply Jbegin; [done|by eapply call_at_here|by eapply now_of_here].
  Qed.

  Lemma JP_run bf vs s i sc c d q q' s' : JP bf vs s -> scripts !! i = Some sc ->
    vs !! i = Some (d, Some (TRun q)) -> sc !! length d = Some c -> quiet q ->
    within (uses (c_req c)) (may_write (c_req c)) (r_command (c_req c) = CStats) q ->
    pstep q s = Some (q', s') -> JP bf (<[i := (d, Some (TRun q'))]> vs) s'.
  Proof.
    intros HP Hsc Hv Hc Hq _ Hst. unfold JP.
    eapply Jext; [intros ij; symmetry; by apply (now_of_step _ _ _ _ _ Hv)|].
    eapply Jstep; [done|by eapply call_at_here|by eapply now_of_here|done|done].
  Qed.

  Lemma JP_count bf vs s i sc c d r s' : JP bf vs s -> scripts !! i = Some sc ->
    vs !! i = Some (d, Some (TRun (PRet r))) -> sc !! length d = Some c -> r <> CPanic ->
    st_keys s' = st_keys s -> st_counters s' = cbump r (st_counters s) ->
    JP bf (<[i := (d, Some (TDone r))]> vs) s'.
  Proof.
    intros HP Hsc Hv Hc Hr _ Es. unfold JP.
    eapply Jext; [intros ij; symmetry; by apply (now_of_step _ _ _ _ _ Hv)|].
    eapply Jcount; [done|by eapply call_at_here|by eapply now_of_here|done|done].
  Qed.

  Lemma JP_return bf vs s i sc c d x r : JP bf vs s -> scripts !! i = Some sc ->
    vs !! i = Some (d, Some x) -> sc !! length d = Some c ->
    (x = TDone r \/ (r = CPanic /\ x = TRun (PRet CPanic))) -> JP bf (<[i := (d ++ [r], None)]> vs) s.
  Proof.
    intros HP Hsc Hv Hc Hx. unfold JP.
    eapply Jext; [intros ij; symmetry; by apply (now_of_return _ _ _ _ _ Hv)|].
    eapply Jreturn; [done|by eapply call_at_here|by eapply now_of_here|done].
  Qed.

  Lemma stats_rule sched x : sys_run sched (begin scripts s0) = Some x ->
    exists vs, rinv scripts s0 (JP (before scripts s0 sched)) vs x.
  Proof.
    revert x. induction sched as [|i sched IH] using rev_ind; intros x Hr.
    - assert (Hnone : forall ij, now_of (map (fun _ : list call => ([], None)) scripts) ij = None).
      { intros ij. unfold now_of. change (map ?f scripts) with (f <$> scripts).
        rewrite list_lookup_fmap. destruct (scripts !! ij.1); [|done]. cbn. by destruct (decide _). }
      assert (Hnb : forall a b, ~ before scripts s0 [] a b).
      { intros a b (n & y & r & _ & Hy & Hret & _). rewrite take_nil in Hy. injection Hy as <-.
        destruct Hret as (cl & Hcl & Hd). cbn in Hcl. change (map ?f scripts) with (f <$> scripts) in Hcl.
        rewrite list_lookup_fmap in Hcl. destruct (scripts !! a.1); [|done]. injection Hcl as <-. done. }
      eapply (scripts_inv scripts s0 room63 (JP (before scripts s0 [])));
        [intros; by eapply JP_begin|intros; by eapply JP_run|intros; by eapply JP_count|intros; by eapply JP_return| |done].
      unfold JP. eapply Jext; [intros ij; symmetry; apply Hnone|].
      eapply Jmore; [| |exact Jinit]; [done|]. intros a b H. by destruct (Hnb a b).
    - rewrite sys_run_app in Hr. destruct (sys_run sched (begin scripts s0)) as [z|] eqn:Hz; [|done].
      cbn in Hr. destruct (sys_step i z) as [z'|] eqn:Hs; [|done]. injection Hr as <-.
      destruct (IH z eq_refl) as [vs Hvs]. pose proof Hs as Hs0.
      eapply (rinv_step scripts s0 room63 (JP (before scripts s0 sched))) in Hs as [vs' Hvs'];
        [|intros; by eapply JP_begin|intros; by eapply JP_run|intros; by eapply JP_count|intros; by eapply JP_return|done].
      exists vs'. pose proof Hvs' as (A & B & C & D & E). split_and!; try done.
      eapply Jmore; [| |exact E].
      + intros a b (n & y & r & Hn & Hy & Ha & Hb). exists n, y, r. rewrite app_length, take_app_le by done.
        split_and!; try done. lia.
      + intros a b (n & y & r & Hn & Hy & Ha & Hb).
        rewrite app_length in Hn. cbn in Hn. destruct (decide (n <= length sched)) as [Hle|Hgt].
        * left. rewrite take_app_le in Hy by done. by exists n, y, r.
        * right. rewrite firstn_all2 in Hy by (rewrite app_length; cbn; lia).
          rewrite sys_run_app, Hz in Hy. cbn in Hy. rewrite Hs0 in Hy. injection Hy as <-.
          split; [exists r; by eapply now_of_returned|by eapply now_of_not_begun].
  Qed.
End stats.

Lemma found_lens V l k v : found V l !! k = Some v -> (lenN k < 32)%N /\ lenN v = 8%N.
Proof.
  intros H. destruct (found_names V l k) as (m & _ & ->); [by eauto|].
  split; [destruct m; by vm_compute|]. revert H. unfold found. induction l as [|m' l IH] using rev_ind; [done|].
  rewrite foldl_app. cbn [foldl]. unfold put_entry at 1. destruct (V m') as [n|]; [|done].
  destruct (decide (metric_name m' = metric_name m)) as [->|Hne].
  - rewrite lookup_insert. intros [= <-]. unfold i64_enc. by rewrite be_enc_lenN.
  - by rewrite lookup_insert_ne.
Qed.

Lemma payload_map_bound (l : list (bytes * bytes)) : (forall k v, (k, v) ∈ l -> (lenN k < 32)%N /\ lenN v = 8%N) ->
  (lenN (payload_map l) <= 2 + 45 * lenN l)%N.
Proof.
  intros H. unfold payload_map. rewrite lenN_app, be_enc_lenN. change (N.of_nat 2) with 2%N.
  assert (lenN (concat (map (fun kv : bytes * bytes => be_enc 1 (lenN kv.1) ++ kv.1 ++ be_enc 4 (lenN kv.2) ++ kv.2) l)) <= 45 * lenN l)%N; [|lia].
  induction l as [|[k v] l IH]; [done|]. cbn [map concat]. rewrite !lenN_app, !be_enc_lenN, lenN_cons.
  destruct (H k v) as [H1 H2]; [by left|]. specialize (IH (fun k v Hkv => H k v (elem_of_list_further _ _ _ Hkv))).
  cbn [fst snd]. change (N.of_nat 1) with 1%N. change (N.of_nat 4) with 4%N. rewrite H2. lia.
Qed.

Lemma found_limits V : within_limits (RValue (VMap (found V stats_counters))).
Proof.
  set (d := found V stats_counters).
  assert (Hs : size d <= 3).
  { rewrite <-size_dom. transitivity (size (list_to_set (map metric_name stats_counters) : gset bytes)); [|by vm_compute; lia].
    apply subseteq_size. intros k Hk%elem_of_dom. destruct (found_names _ _ _ Hk) as (m & Hm & ->).
    apply elem_of_list_to_set, elem_of_list_fmap. eauto. }
  split; [|split].
  - change u16_mod with 65536%N. lia.
  - intros k v [H _]%found_lens. lia.
  - pose proof (payload_map_bound (map_to_list d)) as Hp. unfold lenN at 2 in Hp. change (length (map_to_list d)) with (size d) in Hp.
    assert (lenN (payload_map (map_to_list d)) <= 2 + 45 * N.of_nat (size d))%N.
    { apply Hp. intros k v Hkv%elem_of_map_to_list. by eapply found_lens. }
    change u32_mod with 4294967296%N. lia.
Qed.

Lemma stats_out_ok c V : env_ok (c_env c) ->
  stats_out c V = COk (c_res c ++ resp_frame (c_env c) (RValue (VMap (found V stats_counters)))).
Proof.
  intros He. unfold stats_out. change (write_map (c_env c) (c_res c) ?d) with (copy_to (c_env c) (RValue (VMap d)) (c_res c)).
  rewrite copy_to_ok; [done|done|apply found_limits].
Qed.

Lemma lenN_subset {A} (l k : list A) : NoDup l -> (forall x, x ∈ l -> x ∈ k) -> (lenN l <= lenN k)%N.
Proof.
  intros Hn H. assert (length l <= length k) by (by apply submseteq_length, NoDup_submseteq). unfold lenN. lia.
Qed.

Lemma c119 scripts s0 sched x :
  (forall m, (count s0 m + lenN (concat scripts) < 2 ^ 63)%N) -> envs_ok scripts ->
  sys_run sched (begin scripts s0) = Some x ->
  exists n, stats_fit scripts s0 (before scripts s0 sched) (returned x) n.
Proof.
  intros Hb Hen Hr. destruct (stats_rule scripts s0 Hb sched x Hr) as [vs Hvs].
  pose proof Hvs as (_ & _ & _ & _ & H1 & H2 & L & V & Ls & rd & A & B & C & D & F).
  set (now := now_of vs) in *.
  assert (Hret : forall a r, returned x a r -> now a = Some (TDone r)) by (intros a r; by eapply now_of_returned).
  assert (Hst : forall a c r, call_at scripts a = Some c -> asks_stats c -> returned x a r ->
    env_ok (c_env c) /\ r = stats_out c (fun m => V m a) /\ rd a = stats_counters).
  { intros a c r Hc (l & Hq1 & Hq2 & _) Ha%Hret. split; [apply Hen; by exists a|].
    pose proof (D a c (conj Hc (conj Hq1 Hq2))) as HD. by rewrite Ha in HD. }
  assert (Hses : forall a, MSessionsStarted ∈ rd a -> Ls MSessionsStarted a = []).
  { intros a Hm. destruct (C a _ Hm) as (_ & _ & G & _). destruct (Ls MSessionsStarted a) as [|b l]; [done|].
    destruct (G b) as [(r & _ & Hx) _]; [by left|]. by destruct r. }
  exists (fun m a => (count s0 m + lenN (Ls m a))%N). split.
  - intros a c r Hc Hs Ha. destruct (Hst a c r Hc Hs Ha) as (He & -> & Hrd).
    assert (G : forall m, m ∈ stats_counters -> good s0 (before scripts s0 sched) now V Ls m a).
    { intros m Hm. apply C. by rewrite Hrd. }
    assert (M1 : MCommandsErrored ∈ stats_counters) by (by left).
    assert (M2 : MCommandsSuccessful ∈ stats_counters) by (by right; left).
    assert (M3 : MSessionsStarted ∈ stats_counters) by (by right; right; left).
    assert (Hnd : NoDup stats_counters) by (unfold stats_counters; repeat constructor; set_solver).
    split.
    + exists (found (fun m => V m a) stats_counters). split; [by apply stats_out_ok|]. split_and!.
      * apply (found_entry _ _ MCommandsSuccessful); [done|done|]. symmetry. by apply G.
      * apply (found_entry _ _ MCommandsErrored); [done|done|]. symmetry. by apply G.
      * apply (found_entry _ _ MSessionsStarted); [done|done|]. destruct (G _ M3) as [-> _].
        rewrite Hses by (by rewrite Hrd). unfold lenN. cbn. lia.
      * intros k (m & Hm & ->)%found_names. unfold stats_counters in Hm.
        apply elem_of_cons in Hm as [->|[->|[->|Hm%elem_of_nil]%elem_of_cons]%elem_of_cons]; auto. done.
    + intros m Hm. assert (Hin : m ∈ stats_counters) by (by destruct Hm as [->| ->]).
      destruct (G m Hin) as (G1 & G2 & G3 & G4). split.
      * intros l Hl1 Hl2. assert (lenN l <= lenN (Ls m a))%N; [|lia]. apply lenN_subset; [done|].
        intros b Hb'. destruct (Hl2 b Hb') as (Hbf & r & Hbr & Had). apply G4; [done|]. exists r. split; [by apply Hret|done].
      * intros l Hl. assert (lenN (Ls m a) <= lenN l)%N; [|lia]. apply lenN_subset; [done|].
        intros b Hb'. destruct (G3 b Hb') as ((r & Hbr & Had) & Hne & Hnb). apply Hl; [by eapply H2|done|done|].
        intros r' Hr'%Hret. assert (r' = r) as -> by congruence. done.
  - intros a b c d ra rb Hc Hs Ha Hd Hs' Hb' Hbef.
    destruct (Hst a c ra Hc Hs Ha) as (He & -> & Hrd). destruct (Hst b d rb Hd Hs' Hb') as (He' & -> & Hrd').
    assert (M1 : MCommandsErrored ∈ stats_counters) by (by left).
    assert (M2 : MCommandsSuccessful ∈ stats_counters) by (by right; left).
    assert (Hsub : forall m, m ∈ stats_counters -> Ls m a ⊆ Ls m b).
    { intros m Hm. apply F; [done|by rewrite Hrd|by rewrite Hrd']. }
    split.
    + destruct (C a MCommandsSuccessful) as (_ & G2 & G3 & _); [by rewrite Hrd|].
      destruct (C b MCommandsSuccessful) as (_ & _ & _ & G4); [by rewrite Hrd'|].
      assert (lenN (a :: Ls MCommandsSuccessful a) <= lenN (Ls MCommandsSuccessful b))%N as Hle;
        [|rewrite lenN_cons in Hle; lia].
      apply lenN_subset.
      * apply NoDup_cons. split; [|done]. intros Hin. by destruct (G3 a Hin) as (_ & ? & _).
      * intros y [->|Hy]%elem_of_cons; [|by apply Hsub]. apply G4; [done|]. eexists. split; [by apply Hret|].
        by rewrite stats_out_ok.
    + destruct (C a MCommandsErrored) as (_ & G2 & _); [by rewrite Hrd|].
      assert (lenN (Ls MCommandsErrored a) <= lenN (Ls MCommandsErrored b))%N; [|lia].
      apply lenN_subset; [done|]. by apply Hsub.
Qed.

(** With the locks of the store. *)
Lemma stats_fit_mono scripts s0 (bef bef' : nat * nat -> nat * nat -> Prop) (ret ret' : nat * nat -> cres -> Prop) n :
  (forall a b, bef' a b -> bef a b) -> (forall a r, ret' a r <-> ret a r) ->
  stats_fit scripts s0 bef ret n -> stats_fit scripts s0 bef' ret' n.
Proof.
  intros Hbf Hret [H1 H2]. split.
  - intros a c r Hc Hs Ha%Hret. destruct (H1 a c r Hc Hs Ha) as [A B]. split; [done|]. intros m Hm.
    destruct (B m Hm) as [B1 B2]. split.
    + intros l Hl Hb. apply B1; [done|]. intros b Hin. destruct (Hb b Hin) as (C1 & r' & C2 & C3).
      split; [by apply Hbf|]. exists r'. split; [by apply Hret|done].
    + intros l Hl. apply B2. intros b Hc' Hne Hnb Had. apply Hl; [done|done| |].
      * intros Hb. by apply Hnb, Hbf.
      * intros r' Hr'%Hret. by apply Had.
  - intros a b c d ra rb Hc Hs Ha%Hret Hd Hs' Hb%Hret Hab%Hbf. by eapply H2.
Qed.

Lemma c119_locked sh scripts s0 sched x :
  (forall m, (count s0 m + lenN (concat scripts) < 2 ^ 63)%N) -> envs_ok scripts ->
  lsys_run sh sched (lbegin scripts s0) = Some x ->
  exists n, stats_fit scripts s0 (lbefore sh scripts s0 sched) (lreturned x) n.
Proof.
  intros Hb He Hr. destruct (lock_transfer _ _ _ _ _ Hr) as (sched' & y & f & Hy & Hi & _ & _ & _ & Hbf).
  destruct (c119 scripts s0 sched' y Hb He Hy) as [n Hn]. exists n. eapply stats_fit_mono; [exact Hbf| |exact Hn].
  intros a r. by apply (sinv_returned _ _ _ _ _ Hi).
Qed.
