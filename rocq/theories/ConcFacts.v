(** Proofs about concurrent commands. *)
From Verif Require Import Bytes BytesFacts Utf8 Float64 Value CommandId Request Response
  Metrics Prog Commands EngineSpec WireSpec RequestSpec RequestFacts HistorySpec ProgFacts
  CommandFacts SafeFacts EngineFacts EngineProps HistoryFacts Concurrent ConcSpec.
From stdpp Require Import gmap list.
From Coq Require Import NArith ZArith Lia.
From Coq Require Import ZifyBool ZifyNat ZifyN.

(** ** Schedules *)

Lemma pool_run_app a b x :
  pool_run (a ++ b) x = match pool_run a x with Some y => pool_run b y | None => None end.
Proof.
  revert x. induction a as [|i a IH]; intros x; cbn; [done|].
  destruct (pool_step i x); [apply IH|done].
Qed.

Lemma pool_run_snoc a i x y :
  pool_run (a ++ [i]) x = Some y -> exists z, pool_run a x = Some z /\ pool_step i z = Some y.
Proof.
  rewrite pool_run_app. destruct (pool_run a x) as [z|]; [|done]. cbn.
  destruct (pool_step i z) eqn:Hs; [|done]. intros [= ->]. eauto.
Qed.

(** ** A command and its counter step *)

(** A client: still in the command, or returned. *)
Inductive tstate := TRun (q : prog) | TDone (r : cres).

Definition tail (e : env) (r : cres) : prog :=
  match r with
  | COk _ => PIncr (debug e) MCommandsSuccessful (PRet r)
  | CErr _ _ => PIncr (debug e) MCommandsErrored (PRet r)
  | CPanic => PRet CPanic
  end.

Definition tprog (c : call) (x : tstate) : prog :=
  match x with
  | TRun q => pbind q (tail (c_env c))
  | TDone r => PRet r
  end.

Definition bump (c : call) (r : cres) (s : store) : option (tstate * store) :=
  let go m := match counters_increment (debug (c_env c)) (st_counters s) m with
              | Ok cs => Some (TDone r, Store (st_keys s) cs)
              | Panic => Some (TDone CPanic, s)
              end in
  match r with
  | COk _ => go MCommandsSuccessful
  | CErr _ _ => go MCommandsErrored
  | CPanic => None
  end.

Definition tstep (c : call) (x : tstate) (s : store) : option (tstate * store) :=
  match x with
  | TDone _ => None
  | TRun (PRet r) => bump c r s
  | TRun q => match pstep q s with Some (q', s') => Some (TRun q', s') | None => None end
  end.

Definition tquiet (x : tstate) : Prop := match x with TRun q => quiet q | TDone _ => True end.

Lemma quiet_pstep p s p' s' : quiet p -> pstep p s = Some (p', s') -> quiet p'.
Proof.
  destruct p as [r|k c|k c|k v c|k c|k d u c|k d u c|m c|dbg m c]; cbn; try done;
    try (intros H [= <- <-]; done).
  intros H. destruct (st_keys s !! k) as [v|].
  - destruct (u v). by intros [= <- <-].
  - by intros [= <- <-].
Qed.

Lemma quiet_keeps p s p' s' : quiet p -> pstep p s = Some (p', s') -> st_counters s' = st_counters s.
Proof.
  destruct p as [r|k c|k c|k v c|k c|k d u c|k d u c|m c|dbg m c]; cbn; try done;
    try (intros H [= <- <-]; done).
  intros H. destruct (st_keys s !! k) as [v|].
  - destruct (u v). by intros [= <- <-].
  - by intros [= <- <-].
Qed.

Lemma tstep_prog c x s : tquiet x ->
  pstep (tprog c x) s =
  match tstep c x s with Some (x', s') => Some (tprog c x', s') | None => None end.
Proof.
  destruct x as [q|r]; [|done]. intros Hq.
  destruct q as [r|k q|k q|k v q|k q|k d u q|k d u q|m q|dbg m q]; cbn in *; try done.
  - destruct r as [b|err b|]; cbn; [| |done]; by destruct (counters_increment _ _ _).
  - destruct (st_keys s !! k) as [v|]; [|done]. by destruct (u v).
Qed.

Lemma tstep_quiet c x s x' s' : tquiet x -> tstep c x s = Some (x', s') -> tquiet x'.
Proof.
  destruct x as [q|r]; [|done]. intros Hq.
  assert (H : forall q', pstep q s = Some (q', s') -> x' = TRun q' -> tquiet x').
  { intros q' Hs ->. by eapply quiet_pstep. }
  unfold tstep. destruct q as [r| | | | | | | |].
  { unfold bump. destruct r; try done; destruct (counters_increment _ _ _); by intros [= <- <-]. }
  all: destruct (pstep _ s) as [[q' s1]|] eqn:Hs; [|done]; intros [= <- <-]; by eapply H.
Qed.

(** The initial client of a call. *)
Definition tstart (c : call) : tstate := TRun (command_prog (c_env c) (c_req c) (c_res c)).

Lemma tstart_prog c : tprog c (tstart c) = dispatch_prog (c_env c) (c_req c) (c_res c).
Proof. done. Qed.

Lemma tstart_quiet c : tquiet (tstart c).
Proof. apply command_quiet. Qed.

(** *** An invariant rule *)

Lemma conc_inv cs s0 (P : list tstate -> store -> Prop) :
  P (map tstart cs) s0 ->
  (forall xs s i c x x' s', P xs s -> cs !! i = Some c -> xs !! i = Some x ->
     tquiet x -> tstep c x s = Some (x', s') -> P (<[i := x']> xs) s') ->
  forall sched ts s, reaches cs s0 sched ts s ->
  exists xs, length xs = length cs /\ ts = zip_with tprog cs xs /\ Forall tquiet xs /\ P xs s.
Proof.
  intros H0 Hstep sched. induction sched as [|i sched IH] using rev_ind; intros ts s Hr.
  - injection Hr as <- <-. exists (map tstart cs). rewrite map_length. split; [done|]. split.
    + clear. induction cs as [|c cs IH]; cbn; [done|]. by f_equal.
    + split; [|done]. apply Forall_forall. intros x Hx%elem_of_list_fmap.
      destruct Hx as (c & -> & _). apply tstart_quiet.
  - apply pool_run_snoc in Hr as ([ts1 s1] & Hr & Hs).
    destruct (IH _ _ Hr) as (xs & Hl & -> & Hq & HP). clear IH Hr.
    unfold pool_step in Hs. cbn [fst snd] in Hs.
    rewrite lookup_zip_with in Hs.
    destruct (cs !! i) as [c|] eqn:Hc; cbn in Hs; [|done].
    destruct (xs !! i) as [x|] eqn:Hx; cbn in Hs; [|done].
    pose proof (Forall_lookup_1 _ _ _ _ Hq Hx) as Hqx.
    rewrite tstep_prog in Hs by done.
    destruct (tstep c x s1) as [[x' s']|] eqn:Ht; [|done]. injection Hs as <- <-.
    exists (<[i := x']> xs). split; [by rewrite insert_length|]. split.
    + apply list_eq. intros j. rewrite lookup_zip_with.
      destruct (decide (i = j)) as [<-|Hne].
      * rewrite !list_lookup_insert; [by rewrite Hc|by eapply lookup_lt_Some|].
        rewrite zip_with_length. apply lookup_lt_Some in Hx, Hc. lia.
      * by rewrite !list_lookup_insert_ne, lookup_zip_with by done.
    + split; [|by eapply Hstep]. apply Forall_insert; [done|]. by eapply tstep_quiet.
Qed.

(** ** Counters (C57) *)

Definition credit (m : metric) (x : tstate) : N :=
  match x, m with
  | TDone (COk _), MCommandsSuccessful => 1
  | TDone (CErr _ _), MCommandsErrored => 1
  | _, _ => 0
  end%N.

Fixpoint nsum (l : list N) : N := match l with [] => 0 | n :: l => (n + nsum l)%N end.

Lemma nsum_insert l i x y :
  l !! i = Some x -> (nsum (<[i := y]> l) + x = nsum l + y)%N.
Proof.
  revert i. induction l as [|z l IH]; intros [|i]; cbn; try done.
  - intros [= ->]. lia.
  - intros H. apply (IH i) in H. change (z + nsum (<[i := y]> l) + x = z + nsum l + y)%N. lia.
Qed.

Lemma nsum_le l b : Forall (fun n => (n <= b)%N) l -> (nsum l <= b * lenN l)%N.
Proof. unfold lenN. induction 1; cbn; lia. Qed.

Lemma credit_le m x : (credit m x <= 1)%N.
Proof. destruct x as [q|[]], m; cbn; lia. Qed.

Definition counted (s0 : store) (xs : list tstate) (s : store) : Prop :=
  (forall m, count s m = (count s0 m + nsum (map (credit m) xs))%N) /\
  Forall (fun x => x <> TDone CPanic) xs.

Lemma nsum_credit_le m xs : (nsum (map (credit m) xs) <= lenN xs)%N.
Proof.
  pose proof (nsum_le (map (credit m) xs) 1) as H. unfold lenN in *. rewrite map_length in H.
  rewrite N.mul_1_l in H. apply H. apply Forall_forall. intros n (x & -> & _)%elem_of_list_fmap.
  apply credit_le.
Qed.

Lemma nsum_credit_insert m xs i x x' : xs !! i = Some x ->
  (nsum (map (credit m) (<[i := x']> xs)) + credit m x = nsum (map (credit m) xs) + credit m x')%N.
Proof.
  intros H. assert (E : map (credit m) (<[i := x']> xs) = <[i := credit m x']> (map (credit m) xs))
    by apply list_fmap_insert.
  rewrite E. apply nsum_insert. change (credit m <$> xs !! i = Some (credit m x)) ||
    (transitivity (credit m <$> xs !! i); [apply list_lookup_fmap|]). by rewrite H.
Qed.

(** A client in its command has no credit yet. *)
Lemma tstep_run_cases c x s x' s' : tstep c x s = Some (x', s') ->
  (exists q q', x = TRun q /\ x' = TRun q' /\ pstep q s = Some (q', s')) \/
  (exists r, x = TRun (PRet r) /\ bump c r s = Some (x', s')).
Proof.
  destruct x as [q|r]; [|done]. cbn.
  destruct q as [r| | | | | | | |]; [by right; eexists|..];
    (destruct (pstep _ s) as [[q' s1]|] eqn:Hs; [|done]); intros [= <- <-]; left; eauto.
Qed.

Lemma counters_inc_at dbg s m : (count s m + 1 < u64_mod)%N ->
  counters_increment dbg (st_counters s) m = Ok (<[m := (count s m + 1)%N]> (st_counters s)).
Proof.
  intros H. unfold counters_increment, uadd. fold (count s m).
  by rewrite (proj2 (N.ltb_lt _ _)) by done.
Qed.

Lemma counted_step cs s0 xs s i c x x' s' : room_for cs s0 -> length xs = length cs ->
  counted s0 xs s -> cs !! i = Some c -> xs !! i = Some x -> tquiet x ->
  tstep c x s = Some (x', s') ->
  counted s0 (<[i := x']> xs) s' /\
  (forall r, x = TRun (PRet r) -> x' = TDone r /\ st_keys s' = st_keys s).
Proof.
  intros Hroom Hl [Hcnt Hnp] Hc Hx Hq Ht.
  destruct (tstep_run_cases _ _ _ _ _ Ht) as [(q & q' & -> & -> & Hs)|(r & -> & Hb)].
  - split.
    + split; [|by apply Forall_insert].
      intros m. pose proof (nsum_credit_insert m xs i _ (TRun q') Hx) as Hn. cbn in Hn.
      rewrite (count_counters s' s) by (by eapply quiet_keeps). rewrite Hcnt. lia.
    + intros r [= ->]. done.
  - assert (H1 : forall m r', credit m (TDone r') = 1%N -> (count s m + 1 < u64_mod)%N).
    { intros m r' Hcr. rewrite Hcnt. specialize (Hroom m).
      pose proof (nsum_credit_le m (<[i := TDone r']> xs)) as Hle.
      pose proof (nsum_credit_insert m xs i _ (TDone r') Hx) as Hn.
      unfold lenN in Hle, Hroom. rewrite insert_length, Hl in Hle. rewrite Hcr in Hn.
      change (credit m (TRun (PRet r))) with 0%N in Hn.
      change (2 ^ 64)%N with u64_mod in Hroom. lia. }
    assert (Hcount : forall m m', count (Store (st_keys s) (<[m := (count s m + 1)%N]> (st_counters s))) m'
      = (count s m' + if decide (m = m') then 1 else 0)%N).
    { intros m m'. unfold count at 1. cbn. destruct (decide (m = m')) as [<-|Hne].
      - by rewrite lookup_insert.
      - rewrite lookup_insert_ne by done. fold (count s m'). lia. }
    unfold bump in Hb. destruct r as [b|err b|]; [| |done].
    + rewrite counters_inc_at in Hb by by apply (H1 _ (COk b)). injection Hb as <- <-.
      split; [|by intros r [= ->]].
      split; [|by apply Forall_insert]. intros m. rewrite Hcount, Hcnt.
      pose proof (nsum_credit_insert m xs i _ (TDone (COk b)) Hx) as Hn.
      destruct m; cbn in Hn |- *; (case_decide; [try done|try done]); lia.
    + rewrite counters_inc_at in Hb by by apply (H1 _ (CErr err b)). injection Hb as <- <-. split; [|by intros r [= ->]].
      split; [|by apply Forall_insert]. intros m. rewrite Hcount, Hcnt.
      pose proof (nsum_credit_insert m xs i _ (TDone (CErr err b)) Hx) as Hn.
      destruct m; cbn in Hn |- *; (case_decide; [try done|try done]); lia.
Qed.

Lemma counted_start cs s : counted s (map tstart cs) s.
Proof.
  split.
  - intros m. assert (H : nsum (map (credit m) (map tstart cs)) = 0%N).
    { induction cs as [|c cs IH]; cbn; [done|]. rewrite IH. by destruct m. }
    rewrite H. lia.
  - apply Forall_forall. by intros x (c & -> & _)%elem_of_list_fmap.
Qed.

(** The invariant rule with the counters known not to overflow. *)
Lemma conc_inv_counted cs s0 (P : list tstate -> store -> Prop) :
  room_for cs s0 ->
  P (map tstart cs) s0 ->
  (forall xs s i c q q' s', P xs s -> cs !! i = Some c -> xs !! i = Some (TRun q) ->
     quiet q -> pstep q s = Some (q', s') -> P (<[i := TRun q']> xs) s') ->
  (forall xs s i c r s', P xs s -> cs !! i = Some c -> xs !! i = Some (TRun (PRet r)) ->
     r <> CPanic -> st_keys s' = st_keys s -> P (<[i := TDone r]> xs) s') ->
  forall sched ts s, reaches cs s0 sched ts s ->
  exists xs, length xs = length cs /\ ts = zip_with tprog cs xs /\ Forall tquiet xs /\
    counted s0 xs s /\ P xs s.
Proof.
  intros Hroom H0 Hrun Hret sched ts s Hr.
  destruct (conc_inv cs s0 (fun xs s => length xs = length cs /\ counted s0 xs s /\ P xs s))
    with (sched := sched) (ts := ts) (s := s) as (xs & H1 & H2 & H3 & H4 & H5 & H6); [| |done|].
  - split; [by rewrite map_length|]. split; [apply counted_start|done].
  - intros xs s1 i c x x' s' (Hl & Hc & HP) Hci Hx Hq Ht.
    destruct (counted_step cs s0 xs s1 i c x x' s') as [Hc' Hd]; try done.
    split; [by rewrite insert_length|]. split; [done|].
    destruct (tstep_run_cases _ _ _ _ _ Ht) as [(q & q' & -> & -> & Hs)|(r & -> & Hb)].
    + by eapply Hrun.
    + destruct (Hd r eq_refl) as [-> Hk]. eapply Hret; try done. intros ->. done.
  - eauto 10.
Qed.

Lemma credit_count f m cs xs :
  (m = MCommandsSuccessful /\ f = returned_ok) \/ (m = MCommandsErrored /\ f = returned_err) ->
  length xs = length cs -> Forall tquiet xs ->
  nsum (map (credit m) xs) = how_many_at f (zip_with tprog cs xs).
Proof.
  intros Hf. revert cs. induction xs as [|x xs IH]; intros [|c cs] Hl Hq; cbn; try done.
  apply Forall_cons in Hq as [Hx Hq]. rewrite (IH cs) by (done || (cbn in Hl; lia)).
  unfold how_many_at. rewrite filter_cons.
  assert (Hc : credit m x = if decide (f (tprog c x) = true) then 1%N else 0%N).
  { destruct x as [q|r].
    - rewrite decide_False; [done|].
      destruct Hf as [[-> ->]|[-> ->]]; cbn; destruct q as [r| | | | | | | |]; cbn in *; try done;
        by destruct r.
    - destruct Hf as [[-> ->]|[-> ->]]; by destruct r. }
  rewrite Hc. destruct (decide _); [|done]. unfold lenN. cbn. lia.
Qed.

Lemma c57 cs s0 sched ts s : room_for cs s0 -> reaches cs s0 sched ts s ->
  count s MCommandsSuccessful = (count s0 MCommandsSuccessful + how_many_at returned_ok ts)%N /\
  count s MCommandsErrored = (count s0 MCommandsErrored + how_many_at returned_err ts)%N /\
  count s MSessionsStarted = count s0 MSessionsStarted /\
  count s MSessionsEnded = count s0 MSessionsEnded.
Proof.
  intros Hroom Hr.
  destruct (conc_inv_counted cs s0 (fun _ _ => True) Hroom) with (sched := sched) (ts := ts) (s := s)
    as (xs & Hl & -> & Hq & [Hc _] & _); try done.
  rewrite <-!(credit_count _ _ cs xs) by eauto.
  assert (Hz : forall m, (forall x, credit m x = 0%N) -> nsum (map (credit m) xs) = 0%N).
  { intros m Hm. clear -Hm. induction xs as [|x xs IH]; cbn; [done|]. by rewrite Hm, IH. }
  split_and!; [apply Hc|apply Hc|..]; rewrite Hc, Hz; try lia; by intros [q|[]].
Qed.

Lemma c57_final cs s0 sched ts s rs : room_for cs s0 -> reaches cs s0 sched ts s ->
  all_returned ts rs ->
  count s MCommandsSuccessful =
    (count s0 MCommandsSuccessful + lenN (filter (fun r => is_ok r = true) rs))%N /\
  count s MCommandsErrored =
    (count s0 MCommandsErrored + lenN (filter (fun r => is_err r = true) rs))%N.
Proof.
  intros Hroom Hr ->. destruct (c57 _ _ _ _ _ Hroom Hr) as (-> & -> & _).
  assert (Hf : forall f g, (forall r, f (PRet r) = g r) ->
    how_many_at f (map PRet rs) = lenN (filter (fun r => g r = true) rs)).
  { clear Hr. intros f g Hfg. unfold how_many_at, lenN. f_equal. induction rs as [|r rs IH]; [done|].
    cbn [map]. rewrite !filter_cons, Hfg. destruct (decide _); cbn; auto. }
  split; f_equal; by apply Hf.
Qed.

(** ** What a program reads and writes *)

Section within.
  Context (R W : bytes -> Prop) (C : Prop).

  Fixpoint within (p : prog) : Prop :=
    match p with
    | PRet _ => True
    | PContains k c => R k /\ forall b, within (c b)
    | PGet k c => R k /\ forall v, within (c v)
    | PInsert k v c => W k /\ within c
    | PRemove k c => R k /\ W k /\ forall v, within (c v)
    | PKoi k d u c | PKoiIns k d u c => R k /\ W k /\ forall r, within (c r)
    | PCounter m c => C /\ forall n, within (c n)
    | PIncr dbg m c => within c
    end.

  Lemma within_pstep p s p' s' : within p -> pstep p s = Some (p', s') ->
    within p' /\ forall k, ~ W k -> st_keys s' !! k = st_keys s !! k.
  Proof.
    destruct p as [r|k c|k c|k v c|k c|k d u c|k d u c|m c|dbg m c]; cbn; try done.
    - by intros [_ H] [= <- <-].
    - by intros [_ H] [= <- <-].
    - intros [Hk H] [= <- <-]. split; [done|]. intros k' Hk'. cbn. apply lookup_insert_ne. by intros ->.
    - intros (_ & Hk & H) [= <- <-]. split; [done|]. intros k' Hk'. cbn.
      apply lookup_delete_ne. by intros ->.
    - intros (HR & Hk & H). destruct (st_keys s !! k) as [v|].
      + destruct (u v) as [v' r]. intros [= <- <-]. split; [done|]. intros k' Hk'. cbn.
        apply lookup_insert_ne. by intros ->.
      + by intros [= <- <-].
    - intros (HR & Hk & H) [= <- <-]. split; [done|]. intros k' Hk'. cbn.
      apply lookup_insert_ne. by intros ->.
    - by intros [_ H] [= <- <-].
    - intros H. destruct (counters_increment _ _ _); by intros [= <- <-].
  Qed.

  Lemma within_guarded e k p : within p -> within (guarded e k p).
  Proof. unfold guarded. destruct (starts_with _ _); [done|]. by destruct (debug e && _). Qed.
  Lemma within_koi e k d u : R k -> W k -> within (key_or_insert_with e k d u).
  Proof. intros. by apply within_guarded. Qed.
  Lemma within_ref e k c : R k -> (forall v, within (c v)) -> within (key_ref e k c).
  Proof. intros. by apply within_guarded. Qed.
  Lemma within_resolve req k d c : R k -> (forall t, within (c t)) -> within (resolve_type req k d c).
  Proof. intros. unfold resolve_type. by destruct (r_key_type req). Qed.
  Lemma within_read {A} e res k (f : value -> option A) c : R k -> within (read_variant e res k f c).
  Proof. intros. apply within_ref; [done|]. intros [v|]; [|done]. by destruct (f v). Qed.
  Lemma within_set {A} e res k d (f : value -> option A) n b o : R k -> W k ->
    within (set_with e res k d f n b o).
  Proof. intros. cbn. split; [done|]. split; [done|]. intros _. by apply within_koi. Qed.
  Lemma within_exist l c : (forall k, k ∈ l -> R k) -> (forall b, within (c b)) ->
    within (all_exist l c).
  Proof.
    intros Hl Hc. induction l as [|k l IH]; cbn; [done|].
    split; [apply Hl; left|]. intros []; [|done]. apply IH. intros k' ?. apply Hl. by right.
  Qed.
  Lemma within_are t l c : (forall k, k ∈ l -> R k) -> (forall b, within (c b)) ->
    within (all_are t l c).
  Proof.
    intros Hl Hc. induction l as [|k l IH]; cbn; [done|].
    split; [apply Hl; left|]. intros v. destruct (match v with Some _ => _ | None => _ end); [|done].
    apply IH. intros k' ?. apply Hl. by right.
  Qed.
  Lemma within_stats l m c : C -> (forall m, within (c m)) -> within (stats_loop l m c).
  Proof.
    intros HC Hc. revert m. induction l as [|x l IH]; intros m; cbn; [done|]. split; [done|].
    intros [n|]; [destruct (_ <? _)%Z|]; apply IH.
  Qed.
End within.

(** Within the same keys and without counters, the run is the same. *)
Lemma within_agree (R W : bytes -> Prop) p s t p' s' : (forall k, W k -> R k) ->
  within R W False p -> quiet p ->
  (forall k, R k -> st_keys s !! k = st_keys t !! k) -> pstep p s = Some (p', s') ->
  exists t', pstep p t = Some (p', t') /\ forall k, R k -> st_keys s' !! k = st_keys t' !! k.
Proof.
  intros HWR Hw Hq Ha Hs.
  assert (Hins : forall k v k', R k' -> st_keys (with_keys s (<[k:=v]> (st_keys s))) !! k' =
    st_keys (with_keys t (<[k:=v]> (st_keys t))) !! k').
  { intros k v k' Hk'. rewrite !st_keys_with. destruct (decide (k = k')) as [<-|Hne].
    - by rewrite !lookup_insert.
    - rewrite !lookup_insert_ne by done. by apply Ha. }
  destruct p as [r|k c|k c|k v c|k c|k d u c|k d u c|m c|dbg m c]; cbn in *; try done.
  - injection Hs as <- <-. destruct Hw as [Hk _]. rewrite <-(Ha k Hk). eauto.
  - injection Hs as <- <-. destruct Hw as [Hk _]. rewrite <-(Ha k Hk). eauto.
  - injection Hs as <- <-. eauto.
  - injection Hs as <- <-. destruct Hw as (Hk & _). rewrite <-(Ha k Hk). eexists. split; [done|].
    intros k' Hk'. rewrite !st_keys_with. destruct (decide (k = k')) as [<-|Hne].
    + by rewrite !lookup_delete.
    + rewrite !lookup_delete_ne by done. by apply Ha.
  - destruct Hw as (Hk & _). rewrite <-(Ha k Hk). destruct (st_keys s !! k) as [v|].
    + destruct (u v) as [v' r]. injection Hs as <- <-. eauto.
    + injection Hs as <- <-. eauto.
  - injection Hs as <- <-. eauto.
  - by destruct Hw.
Qed.

Lemma collect_arg f a x : x ∈ arguments_collect_fuel f a -> exists i, arg (a_req a) i = Some x.
Proof.
  revert a. induction f as [|f IH]; intros a; cbn; [by rewrite elem_of_nil|].
  unfold arguments_next. destruct (a_idx a =? a_to a)%N; [by rewrite elem_of_nil|].
  destruct (arg (a_req a) (a_idx a)) as [y|] eqn:Hy; [|by rewrite elem_of_nil].
  intros [->|H]%elem_of_cons; [eauto|]. by apply IH in H.
Qed.

Lemma args_all_arg req a x : args_all req = Some a -> x ∈ arguments_collect a ->
  exists i, arg req i = Some x.
Proof.
  intros Ha Hx. apply collect_arg in Hx.
  unfold args_all, args in Ha. destruct (_ =? _)%N; [done|]. by injection Ha as <-.
Qed.

Lemma command_within e req res :
  within (uses req) (may_write req) (r_command req = CStats) (command_prog e req res).
Proof.
  assert (Hw : forall k, read_only (r_command req) = false -> arg req 0 = Some k -> may_write req k).
  { intros k Hr Hk. split; [done|]. by left. }
  unfold command_prog. destruct (r_command req) eqn:Hc.
  all: assert (Hu : forall k, arg req 0 = Some k ->
    match r_command req with CEcho | CStats | CExists | CIs => True | _ => uses req k end)
    by (intros k Hk; unfold uses; rewrite Hc; auto); rewrite Hc in Hu; cbn in Hu.
  - unfold cmd_increment. destruct (key req) as [k|] eqn:Hk; [|done]. apply key_arg in Hk.
    destruct (wants_float req); apply within_koi; auto.
  - unfold cmd_decrement. destruct (key req) as [k|] eqn:Hk; [|done]. apply key_arg in Hk.
    destruct (wants_float req); apply within_koi; auto.
  - unfold cmd_increment_by. destruct (key req) as [k|] eqn:Hk; [|done]. apply key_arg in Hk.
    destruct (typed_arg convert_i64 req 1) as [z|]; [apply within_koi; auto|].
    destruct (typed_arg convert_f64 req 1); [|done]. apply within_koi; auto.
  - unfold cmd_decrement_by. destruct (key req) as [k|] eqn:Hk; [|done]. apply key_arg in Hk.
    destruct (typed_arg convert_i64 req 1) as [z|].
    + destruct (i64_checked _ _); [apply within_koi; auto|done].
    + destruct (typed_arg convert_f64 req 1); [|done]. apply within_koi; auto.
  - unfold cmd_set. destruct (key req) as [k|] eqn:Hk; [|done]. apply key_arg in Hk.
    destruct (arg req 1); [|done]. apply within_resolve; [auto|]. intros t.
    unfold set_typed. destruct t.
    all: match goal with |- within _ _ _ (match ?x with Some _ => _ | None => _ end) =>
      destruct x end; [|done]; apply within_set; auto.
  - unfold cmd_get. destruct (key req) as [k|] eqn:Hk; [|done]. apply key_arg in Hk.
    apply within_ref; [auto|]. intros [v|]; [|done].
    destruct (r_key_type req); [by destruct (decide _)|done].
  - unfold cmd_delete. destruct (r_key_type req); [done|].
    destruct (key req) as [k|] eqn:Hk; [|done]. apply key_arg in Hk. cbn.
    split; [auto|]. split; [auto|]. by intros [v|].
  - unfold cmd_exists. destruct (r_key_type req); [done|]. destruct (args_all req) as [a|] eqn:Ha; [|done].
    apply within_exist; [|done]. intros k Hk. unfold uses. rewrite Hc. by eapply args_all_arg.
  - unfold cmd_is. destruct (r_key_type req) as [t|]; [|done]. destruct (args_all req) as [a|] eqn:Ha; [|done].
    apply within_are; [|done]. intros k Hk. unfold uses. rewrite Hc. by eapply args_all_arg.
  - unfold cmd_rename. destruct (r_key_type req); [done|].
    destruct (arg req 0) as [k|] eqn:Hk; [|done].
    destruct (arg req 1) as [a|] eqn:Ha; [|done]. cbn.
    assert (uses req a) by (unfold uses; rewrite Hc; auto).
    assert (may_write req a) by (split; [by rewrite Hc|by right]).
    split; [auto|]. intros []; [|done]. split; [done|]. intros []; [done|].
    split; [auto|]. split; [auto|]. by intros [v|].
  - unfold cmd_type. destruct (key req) as [k|] eqn:Hk; [|done]. apply key_arg in Hk.
    destruct (r_key_type req); [done|]. cbn. split; [auto|]. by intros [v|].
  - unfold cmd_append. destruct (arg req 0) as [k|] eqn:Hk; [|done].
    destruct (args_from req 1); [|done]. apply within_resolve; [auto|].
    intros []; try done; apply within_koi; auto.
  - unfold cmd_length. destruct (key req) as [k|] eqn:Hk; [|done]. apply key_arg in Hk.
    apply within_resolve; [auto|]. intros []; try done; apply within_read; auto.
  - unfold cmd_keys. destruct (key req) as [k|] eqn:Hk; [|done]. apply key_arg in Hk.
    apply within_resolve; [auto|]. intros []; try done; apply within_read; auto.
  - unfold cmd_echo. by destruct (args_all req).
  - unfold cmd_stats. destruct (r_key_type req); [done|]. by apply within_stats.
Qed.

(** ** Commands nobody disturbs (C63, C53, C54) *)

Lemma may_write_uses req k : may_write req k -> uses req k.
Proof.
  intros [Hr [Hk|[Hc Hk]]]; unfold uses.
  - destruct (r_command req) eqn:Hc; try done. by left.
  - rewrite Hc. by right.
Qed.

(** Client [i] is where it would be if it had run alone, as far as its keys show. *)
Definition solo (s0 : store) (c : call) (x : tstate) (s : store) : Prop :=
  exists q s1,
    psteps (command_prog (c_env c) (c_req c) (c_res c)) s0 q s1 /\
    (forall k, uses (c_req c) k -> st_keys s !! k = st_keys s1 !! k) /\
    within (uses (c_req c)) (may_write (c_req c)) False q /\
    (x = TRun q \/ exists r, q = PRet r /\ x = TDone r).

Lemma psteps_snoc p s p' s' p'' s'' :
  psteps p s p' s' -> pstep p' s' = Some (p'', s'') -> psteps p s p'' s''.
Proof. intros H1 H2. eapply psteps_trans; [done|]. by apply psteps_one. Qed.

Lemma within_weaken (R W : bytes -> Prop) (C C' : Prop) p : (C -> C') ->
  within R W C p -> within R W C' p.
Proof. intros HC. induction p; cbn; naive_solver. Qed.

(** The writes of the other clients. *)
Definition others_within (cs : list call) (xs : list tstate) : Prop :=
  forall j c q, cs !! j = Some c -> xs !! j = Some (TRun q) ->
    within (uses (c_req c)) (may_write (c_req c)) True q.

Lemma others_within_start cs : others_within cs (map tstart cs).
Proof.
  intros j c q Hc Hq. change (map tstart cs !! j) with ((tstart <$> cs) !! j) in Hq.
  rewrite list_lookup_fmap, Hc in Hq. injection Hq as <-.
  eapply within_weaken; [|apply command_within]. done.
Qed.

Lemma others_within_run cs xs i c q q' s s' :
  others_within cs xs -> cs !! i = Some c -> xs !! i = Some (TRun q) ->
  pstep q s = Some (q', s') -> others_within cs (<[i := TRun q']> xs).
Proof.
  intros Ho Hc Hx Hs j c' q'' Hc' Hq. destruct (decide (i = j)) as [<-|Hne].
  - rewrite list_lookup_insert in Hq by (by eapply lookup_lt_Some). injection Hq as <-.
    assert (c' = c) as -> by congruence. by eapply within_pstep; [eapply Ho|].
  - rewrite list_lookup_insert_ne in Hq by done. by eapply Ho.
Qed.

Lemma others_within_done cs xs i r :
  others_within cs xs -> others_within cs (<[i := TDone r]> xs).
Proof.
  intros Ho j c' q'' Hc' Hq. destruct (decide (i = j)) as [<-|Hne].
  - destruct (decide (i < length xs)) as [Hl|Hl].
    + rewrite list_lookup_insert in Hq by done. done.
    + rewrite list_insert_ge in Hq by lia. by eapply Ho.
  - rewrite list_lookup_insert_ne in Hq by done. by eapply Ho.
Qed.

Lemma start_lookup cs i c : cs !! i = Some c -> map tstart cs !! i = Some (tstart c).
Proof.
  intros Hc. change (map tstart cs !! i) with ((tstart <$> cs) !! i).
  by rewrite list_lookup_fmap, Hc.
Qed.

Lemma solo_reaches cs s0 i c sched ts s :
  room_for cs s0 -> cs !! i = Some c -> r_command (c_req c) <> CStats -> undisturbed cs i c ->
  reaches cs s0 sched ts s ->
  exists x, ts !! i = Some (tprog c x) /\ tquiet x /\ solo s0 c x s.
Proof.
  intros Hroom Hc Hns Hu Hr.
  destruct (conc_inv_counted cs s0 (fun xs s => others_within cs xs /\
    forall x, xs !! i = Some x -> solo s0 c x s) Hroom) with (sched := sched) (ts := ts) (s := s)
    as (xs & Hl & -> & Hq & _ & _ & HP); [| | |done|].
  - split; [apply others_within_start|]. intros x Hx. rewrite (start_lookup _ _ _ Hc) in Hx.
    injection Hx as <-. eexists _, s0. split; [apply psteps_refl|]. split; [done|].
    split; [|by left]. eapply within_weaken; [|apply command_within]. done.
  - intros xs s1 j c' q q' s' [Ho HP] Hc' Hx Hqq Hs. split; [by eapply others_within_run|].
    intros x Hx'. destruct (decide (j = i)) as [->|Hne].
    + assert (c' = c) as -> by congruence.
      rewrite list_lookup_insert in Hx' by (by eapply lookup_lt_Some). injection Hx' as <-.
      destruct (HP _ Hx) as (q1 & t & Hsteps & Hag & Hw & [[= <-]|(r & -> & ?)]); [|done].
      destruct (within_agree _ _ q s1 t q' s' (may_write_uses _) Hw Hqq Hag Hs) as (t' & Ht & Hag').
      exists q', t'. split; [by eapply psteps_snoc|]. split; [done|]. split; [|by left].
      by eapply within_pstep.
    + rewrite list_lookup_insert_ne in Hx' by done.
      destruct (HP _ Hx') as (q1 & t & Hsteps & Hag & Hw & Hx1).
      exists q1, t. split; [done|]. split; [|done]. intros k Hk. rewrite <-Hag by done.
      destruct (within_pstep _ _ _ _ _ _ _ (Ho _ _ _ Hc' Hx) Hs) as [_ Hf]. apply Hf.
      by eapply Hu.
  - intros xs s1 j c' r s' [Ho HP] Hc' Hx Hnp Hk. split; [by apply others_within_done|].
    intros x Hx'. destruct (decide (j = i)) as [->|Hne].
    + rewrite list_lookup_insert in Hx' by (by eapply lookup_lt_Some). injection Hx' as <-.
      destruct (HP _ Hx) as (q1 & t & Hsteps & Hag & Hw & [[= <-]|(r' & -> & ?)]); [|done].
      exists (PRet r), t. rewrite Hk. eauto 10.
    + rewrite list_lookup_insert_ne in Hx' by done.
      destruct (HP _ Hx') as (q1 & t & Hsteps & Hag & Hw & Hx1). exists q1, t. by rewrite Hk.
  - assert (Hi : i < length xs) by (rewrite Hl; by eapply lookup_lt_Some).
    destruct (lookup_lt_is_Some_2 xs i Hi) as [x Hx]. exists x. split.
    + rewrite lookup_zip_with, Hc, Hx. done.
    + split; [by eapply Forall_lookup_1 in Hq|by apply HP].
Qed.

Lemma run_psteps_same p s p' s' : psteps p s p' s' -> run p' s' = run p s.
Proof.
  induction 1 as [|p s p' s' p'' s'' Hs _ IH]; [done|]. rewrite IH. by apply run_pstep.
Qed.

Lemma room_for_room cs s i (c : call) : room_for cs s -> cs !! i = Some c -> room s.
Proof.
  intros H Hc m. specialize (H m). apply lookup_lt_Some in Hc. unfold lenN in H. lia.
Qed.

(** What [dispatch] answers and stores, when counters have room. *)
Lemma dispatch_cmd e s req res : room s ->
  (dispatch e s req res).2 = (run (command_prog e req res) s).2 /\
  st_keys (dispatch e s req res).1 = st_keys (run (command_prog e req res) s).1.
Proof.
  intros Hroom. rewrite dispatch_run, tally_keys. split; [|done]. apply tally_snd.
  eapply room_counters; [|done]. by rewrite quiet_run by apply command_quiet.
Qed.

Lemma tprog_ret c x r : tprog c x = PRet r -> tquiet x ->
  x = TDone r \/ (r = CPanic /\ x = TRun (PRet CPanic)).
Proof.
  destruct x as [q|r']; cbn; [|by intros [= ->]; left].
  destruct q as [r'| | | | | | | |]; cbn; try done.
  destruct r'; cbn; try done. intros [= <-] _. by right.
Qed.

Lemma c63 cs s0 i c sched ts s r :
  room_for cs s0 -> cs !! i = Some c -> r_command (c_req c) <> CStats -> undisturbed cs i c ->
  reaches cs s0 sched ts s -> ts !! i = Some (PRet r) ->
  let alone := dispatch (c_env c) s0 (c_req c) (c_res c) in
  r = alone.2 /\ forall k, uses (c_req c) k -> st_keys s !! k = st_keys alone.1 !! k.
Proof.
  intros Hroom Hc Hns Hu Hr Hi.
  destruct (solo_reaches _ _ _ _ _ _ _ Hroom Hc Hns Hu Hr) as (x & Hx & Hq & q & t & Hst & Hag & _ & Hqx).
  destruct (dispatch_cmd (c_env c) s0 (c_req c) (c_res c)) as [H1 H2];
    [by eapply room_for_room|]. cbn zeta. rewrite H1, H2.
  rewrite Hi in Hx. injection Hx as Hx. symmetry in Hx.
  apply run_psteps_same in Hst. rewrite <-Hst.
  destruct (tprog_ret _ _ _ Hx Hq) as [->|[-> ->]].
  - destruct Hqx as [?|(r' & -> & [= <-])]; [done|]. done.
  - destruct Hqx as [[= <-]|(r' & -> & ?)]; done.
Qed.

(** ** Typing (C64) *)

Lemma c64 cs s0 sched ts s :
  well_typed (st_keys s0) -> reaches cs s0 sched ts s -> well_typed (st_keys s).
Proof.
  intros Hw Hr.
  destruct (conc_inv cs s0 (fun xs s => well_typed (st_keys s) /\
    forall i c q, cs !! i = Some c -> xs !! i = Some (TRun q) ->
      safe (touched (c_req c)) value_wf (ends (c_env c) (c_req c) (c_res c)) q))
    with (sched := sched) (ts := ts) (s := s) as (xs & _ & _ & _ & H & _); [| |done|done].
  - split; [done|]. intros i c q Hc Hx. rewrite (start_lookup _ _ _ Hc) in Hx.
    injection Hx as <-. apply command_safe.
  - intros xs s1 i c x x' s' [Hs Hsafe] Hc Hx Hq Ht.
    destruct (tstep_run_cases _ _ _ _ _ Ht) as [(q & q' & -> & -> & Hp)|(r & -> & Hb)].
    + destruct (safe_pstep _ _ _ _ _ _ _ (Hsafe _ _ _ Hc Hx) Hs Hp) as (H1 & H2 & _).
      split; [done|]. intros j c' q'' Hc' Hx'. destruct (decide (i = j)) as [<-|Hne].
      * rewrite list_lookup_insert in Hx' by (by eapply lookup_lt_Some). injection Hx' as <-.
        by assert (c' = c) as -> by congruence.
      * rewrite list_lookup_insert_ne in Hx' by done. by eapply Hsafe.
    + assert (Hk : st_keys s' = st_keys s1 /\ exists r', x' = TDone r').
      { unfold bump in Hb. destruct r; try done; destruct (counters_increment _ _ _);
          injection Hb as <- <-; eauto. }
      destruct Hk as [-> [r' ->]]. split; [done|].
      intros j c' q'' Hc' Hx'. destruct (decide (i = j)) as [<-|Hne].
      * by rewrite list_lookup_insert in Hx' by (by eapply lookup_lt_Some).
      * rewrite list_lookup_insert_ne in Hx' by done. by eapply Hsafe.
Qed.

(** ** Progress (C55) *)

(** The program returns within [n] steps when left alone, from any state. *)
Fixpoint alone_le (n : nat) (p : prog) : Prop :=
  match p with
  | PRet _ => True
  | PContains k c => exists m, n = S m /\ forall b, alone_le m (c b)
  | PGet k c => exists m, n = S m /\ forall v, alone_le m (c v)
  | PInsert k v c => exists m, n = S m /\ alone_le m c
  | PRemove k c => exists m, n = S m /\ forall v, alone_le m (c v)
  | PKoi k d u c | PKoiIns k d u c => exists m, n = 3 + m /\ forall r, alone_le m (c r)
  | PCounter m c => exists m, n = S m /\ forall x, alone_le m (c x)
  | PIncr dbg m c => exists m, n = S m /\ alone_le m c
  end.

Lemma alone_mono n n' p : n <= n' -> alone_le n p -> alone_le n' p.
Proof.
  revert n n'. induction p as [r|k c IH|k c IH|k v c IH|k c IH|k d u c IH|k d u c IH|m c IH|dbg m c IH];
    intros n n' Hle; cbn; try done; intros (x & -> & H).
  all: first [exists (n' - 1); split; [lia|]; intros; (eapply IH; [|apply H]); lia
             |exists (n' - 3); split; [lia|]; intros; (eapply IH; [|apply H]); lia].
Qed.

Lemma alone_pstep n p s p' s' : alone_le n p -> pstep p s = Some (p', s') -> alone_le n p'.
Proof.
  destruct p as [r|k c|k c|k v c|k c|k d u c|k d u c|m c|dbg m c]; cbn; try done;
    intros (x & -> & H).
  all: try (intros [= <- <-]; (eapply alone_mono; [|apply H]); lia).
  - destruct (st_keys s !! k) as [v|]; [destruct (u v)|]; intros [= <- <-].
    + eapply alone_mono; [|apply H]. lia.
    + cbn. eauto.
  - intros [= <- <-]. cbn. eauto.
  - destruct (counters_increment _ _ _); intros [= <- <-]; [|done].
    eapply alone_mono; [|apply H]. lia.
Qed.

Inductive alone_steps : nat -> prog -> store -> prog -> store -> Prop :=
| alone_nil p s : alone_steps 0 p s p s
| alone_cons n p s p' s' p'' s'' :
  pstep p s = Some (p', s') -> alone_steps n p' s' p'' s'' -> alone_steps (S n) p s p'' s''.

Lemma alone_returns n p s : alone_le n p ->
  exists m r s', m <= n /\ alone_steps m p s (PRet r) s'.
Proof.
  revert n s. induction p as [r|k c IH|k c IH|k v c IH|k c IH|k d u c IH|k d u c IH|m c IH|dbg m c IH];
    intros n s; cbn.
  - intros _. exists 0, r, s. split; [lia|constructor].
  - intros (x & -> & H). edestruct (fun b => IH b _ s (H b)) as (m & r & s' & Hm & Hs).
    exists (S m), r, s'. split; [lia|]. econstructor; [done|]. apply Hs.
  - intros (x & -> & H). edestruct (fun b => IH b _ s (H b)) as (m & r & s' & Hm & Hs).
    exists (S m), r, s'. split; [lia|]. econstructor; [done|]. apply Hs.
  - intros (x & -> & H). edestruct (fun s => IH _ s H) as (m & r & s' & Hm & Hs).
    exists (S m), r, s'. split; [lia|]. econstructor; [done|]. apply Hs.
  - intros (x & -> & H). edestruct (fun b s => IH b _ s (H b)) as (m & r & s' & Hm & Hs).
    exists (S m), r, s'. split; [lia|]. econstructor; [done|]. apply Hs.
  - intros (x & -> & H). destruct (st_keys s !! k) as [v|] eqn:Hk.
    + destruct (u v) as [v' o] eqn:Hu.
      edestruct (fun s => IH o _ s (H o)) as (m & r & s' & Hm & Hs).
      exists (S m), r, s'. split; [lia|]. econstructor; [cbn; by rewrite Hk, Hu|]. apply Hs.
    + destruct (u d) as [v' o] eqn:Hu.
      edestruct (fun s => IH o _ s (H o)) as (m & r & s' & Hm & Hs).
      exists (3 + m), r, s'. split; [lia|]. econstructor; [cbn; by rewrite Hk|].
      econstructor; [done|]. econstructor; [|apply Hs]. cbn. by rewrite st_keys_with, lookup_insert, Hu.
  - intros (x & -> & H). destruct (u d) as [v' o] eqn:Hu.
    edestruct (fun s => IH o _ s (H o)) as (m & r & s' & Hm & Hs).
    exists (2 + m), r, s'. split; [lia|].
    econstructor; [done|]. econstructor; [|apply Hs]. cbn. by rewrite st_keys_with, lookup_insert, Hu.
  - intros (x & -> & H). edestruct (fun b => IH b _ s (H b)) as (m' & r & s' & Hm & Hs).
    exists (S m'), r, s'. split; [lia|]. econstructor; [done|]. apply Hs.
  - intros (x & -> & H). destruct (counters_increment dbg (st_counters s) m) as [cs|] eqn:Hc.
    + edestruct (fun s => IH _ s H) as (m' & r & s' & Hm & Hs).
      exists (S m'), r, s'. split; [lia|]. econstructor; [cbn; by rewrite Hc|]. apply Hs.
    + exists 1, CPanic, s. split; [lia|]. econstructor; [cbn; by rewrite Hc|]. constructor.
Qed.

Lemma alone_guarded n e k p : alone_le n p -> alone_le n (guarded e k p).
Proof. unfold guarded. destruct (starts_with _ _); [done|]. by destruct (debug e && _). Qed.

Lemma alone_koi n e k d u : 3 <= n -> alone_le n (key_or_insert_with e k d u).
Proof. intros. apply alone_guarded. cbn. exists (n - 3). split; [lia|done]. Qed.

Lemma alone_resolve n req k d c : (forall t, alone_le n (c t)) -> alone_le (S n) (resolve_type req k d c).
Proof.
  intros H. unfold resolve_type. destruct (r_key_type req) as [t|].
  - by eapply alone_mono; [|apply H]; lia.
  - cbn. eauto.
Qed.

Lemma alone_read {A} n e res k (f : value -> option A) c : 1 <= n -> alone_le n (read_variant e res k f c).
Proof.
  intros. apply alone_guarded. cbn. exists (n - 1). split; [lia|]. intros [v|]; [|done].
  by destruct (f v).
Qed.

Lemma alone_exist l c : (forall b, alone_le 0 (c b)) -> alone_le (length l) (all_exist l c).
Proof.
  intros H. induction l as [|k l IH]; cbn; [apply H|]. eexists. split; [done|].
  intros []; [done|]. eapply alone_mono; [|apply H]. lia.
Qed.

Lemma alone_are t l c : (forall b, alone_le 0 (c b)) -> alone_le (length l) (all_are t l c).
Proof.
  intros H. induction l as [|k l IH]; cbn; [apply H|]. eexists. split; [done|]. intros v.
  destruct (match v with Some _ => _ | None => _ end); [done|]. eapply alone_mono; [|apply H]. lia.
Qed.

Lemma alone_stats l m c : (forall m, alone_le 0 (c m)) -> alone_le (length l) (stats_loop l m c).
Proof.
  intros H. revert m. induction l as [|x l IH]; intros m; cbn; [apply H|]. eexists. split; [done|].
  intros [n|]; [destruct (_ <? _)%Z|]; apply IH.
Qed.

Lemma alone_set {A} n e res k d (f : value -> option A) new b o : 4 <= n ->
  alone_le n (set_with e res k d f new b o).
Proof.
  intros. cbn. exists (n - 1). split; [lia|]. intros _. apply alone_koi. lia.
Qed.

Lemma collect_length f a : (a_idx a + N.of_nat (length (arguments_collect_fuel f a)) <=
  N.max (a_idx a) (arg_count (a_req a)))%N.
Proof.
  revert a. induction f as [|f IH]; intros a; cbn [arguments_collect_fuel]; [cbn; lia|].
  unfold arguments_next. destruct (a_idx a =? a_to a)%N; [cbn; lia|].
  destruct (arg (a_req a) (a_idx a)) as [y|] eqn:Hy; [|cbn; lia].
  specialize (IH (Arguments (a_idx a + 1) (a_to a) (a_req a))). cbn [a_idx a_req length] in IH |- *.
  assert (a_idx a < arg_count (a_req a))%N; [|lia].
  unfold arg in Hy. destruct (get_at _ _) eqn:Hg; [|done].
  unfold get_at in Hg. destruct (_ <? _)%N eqn:Hlt; [|done]. unfold arg_count. lia.
Qed.

Lemma args_all_length req a : args_all req = Some a ->
  length (arguments_collect a) <= N.to_nat (arg_count req).
Proof.
  intros Ha. unfold arguments_collect. pose proof (collect_length (arguments_fuel a) a) as H.
  unfold args_all, args in Ha. destruct (_ =? _)%N; [done|]. injection Ha as <-.
  cbn [a_idx a_req] in H. lia.
Qed.

(** Six steps, or one for each key and one for the counter. *)
Lemma command_alone e req res :
  alone_le (5 + N.to_nat (arg_count req)) (command_prog e req res).
Proof.
  set (n := N.to_nat (arg_count req)).
  unfold command_prog. destruct (r_command req) eqn:Hc.
  - unfold cmd_increment. destruct (key req) as [k|]; [|done].
    destruct (wants_float req); apply alone_koi; lia.
  - unfold cmd_decrement. destruct (key req) as [k|]; [|done].
    destruct (wants_float req); apply alone_koi; lia.
  - unfold cmd_increment_by. destruct (key req) as [k|]; [|done].
    destruct (typed_arg convert_i64 req 1) as [z|]; [apply alone_koi; lia|].
    destruct (typed_arg convert_f64 req 1); [|done]. apply alone_koi; lia.
  - unfold cmd_decrement_by. destruct (key req) as [k|]; [|done].
    destruct (typed_arg convert_i64 req 1) as [z|].
    + destruct (i64_checked _ _); [apply alone_koi; lia|done].
    + destruct (typed_arg convert_f64 req 1); [|done]. apply alone_koi; lia.
  - unfold cmd_set. destruct (key req) as [k|]; [|done].
    destruct (arg req 1); [|done]. apply alone_resolve. intros t. unfold set_typed. destruct t.
    all: match goal with |- alone_le _ (match ?x with Some _ => _ | None => _ end) =>
      destruct x end; [|done]; apply alone_set; lia.
  - unfold cmd_get. destruct (key req) as [k|]; [|done]. apply alone_guarded. cbn.
    eexists. split; [done|]. intros [v|]; [|done].
    destruct (r_key_type req); [by destruct (decide _)|done].
  - unfold cmd_delete. destruct (r_key_type req); [done|].
    destruct (key req) as [k|]; [|done]. cbn. eexists. split; [done|]. by intros [v|].
  - unfold cmd_exists. destruct (r_key_type req); [done|]. destruct (args_all req) as [a|] eqn:Ha; [|done].
    eapply alone_mono; [|by apply alone_exist]. apply args_all_length in Ha. lia.
  - unfold cmd_is. destruct (r_key_type req) as [t|]; [|done]. destruct (args_all req) as [a|] eqn:Ha; [|done].
    eapply alone_mono; [|by apply alone_are]. apply args_all_length in Ha. lia.
  - unfold cmd_rename. destruct (r_key_type req); [done|]. destruct (arg req 0); [|done].
    destruct (arg req 1) as [a|]; [|done]. cbn. eexists. split; [done|].
    intros []; [|done]. eexists. split; [done|]. intros []; [done|]. eexists. split; [done|].
    intros [v|]; [|done]. cbn. by eexists.
  - unfold cmd_type. destruct (key req) as [k|]; [|done].
    destruct (r_key_type req); [done|]. cbn. eexists. split; [done|]. by intros [v|].
  - unfold cmd_append. destruct (arg req 0); [|done].
    destruct (args_from req 1); [|done]. apply alone_resolve.
    intros []; try done; apply alone_koi; lia.
  - unfold cmd_length. destruct (key req) as [k|]; [|done].
    apply alone_resolve. intros []; try done; apply alone_read; lia.
  - unfold cmd_keys. destruct (key req) as [k|]; [|done].
    apply alone_resolve. intros []; try done; apply alone_read; lia.
  - unfold cmd_echo. by destruct (args_all req).
  - unfold cmd_stats. destruct (r_key_type req); [done|].
    eapply alone_mono; [|by apply alone_stats]. cbn. lia.
Qed.

Lemma alone_pbind n p f : alone_le n p -> (forall r, alone_le 1 (f r)) -> alone_le (S n) (pbind p f).
Proof.
  intros Hp Hf. revert n Hp.
  induction p as [r|k c IH|k c IH|k v c IH|k c IH|k d u c IH|k d u c IH|m c IH|dbg m c IH];
    intros n; cbn; [intros _; eapply alone_mono; [|apply Hf]; lia|..]; intros (x & -> & H).
  all: eexists; split; [reflexivity|]; intros; apply IH; apply H.
Qed.

Lemma dispatch_alone e req res :
  alone_le (6 + N.to_nat (arg_count req)) (dispatch_prog e req res).
Proof.
  unfold dispatch_prog. apply alone_pbind; [apply command_alone|].
  intros [b|err b|]; cbn; eauto.
Qed.

Lemma pool_replicate n i ts s p p' s' : ts !! i = Some p -> alone_steps n p s p' s' ->
  pool_run (replicate n i) (ts, s) = Some (<[i := p']> ts, s').
Proof.
  intros Hi Hs. revert ts Hi. induction Hs as [p s|n p s p' s' p'' s'' Hp _ IH]; intros ts Hi; cbn.
  - by rewrite list_insert_id.
  - unfold pool_step. cbn [fst snd]. rewrite Hi, Hp. rewrite IH.
    + by rewrite list_insert_insert.
    + apply list_lookup_insert. by eapply lookup_lt_Some.
Qed.

Lemma reaches_alone cs s0 sched ts s i c p :
  reaches cs s0 sched ts s -> cs !! i = Some c -> ts !! i = Some p ->
  alone_le (6 + N.to_nat (arg_count (c_req c))) p.
Proof.
  revert ts s p. induction sched as [|j sched IH] using rev_ind; intros ts s p Hr Hc Hp.
  - injection Hr as <- <-. unfold start in Hp. cbn [fst] in Hp.
    change (map ?f cs !! i) with ((f <$> cs) !! i) in Hp.
    rewrite list_lookup_fmap, Hc in Hp. injection Hp as <-. apply dispatch_alone.
  - apply pool_run_snoc in Hr as ([ts1 s1] & Hr & Hs). unfold pool_step in Hs. cbn [fst snd] in Hs.
    destruct (ts1 !! j) as [pj|] eqn:Hj; [|done].
    destruct (pstep pj s1) as [[pj' s']|] eqn:Hst; [|done]. injection Hs as <- <-.
    destruct (decide (j = i)) as [->|Hne].
    + rewrite list_lookup_insert in Hp by (by eapply lookup_lt_Some). injection Hp as <-.
      eapply alone_pstep; [|done]. by eapply IH.
    + rewrite list_lookup_insert_ne in Hp by done. by eapply IH.
Qed.

Lemma c55 cs s0 sched ts s i c p :
  reaches cs s0 sched ts s -> cs !! i = Some c -> ts !! i = Some p ->
  exists n r ts' s', (N.of_nat n <= 6 + arg_count (c_req c))%N /\
    pool_run (replicate n i) (ts, s) = Some (ts', s') /\ ts' !! i = Some (PRet r).
Proof.
  intros Hr Hc Hp.
  destruct (alone_returns _ _ s (reaches_alone _ _ _ _ _ _ _ _ Hr Hc Hp)) as (m & r & s' & Hm & Hs).
  exists m, r, (<[i := PRet r]> ts), s'. split; [lia|]. split; [by eapply pool_replicate|].
  apply list_lookup_insert. by eapply lookup_lt_Some.
Qed.

(** Running the calls one after the other is one of the schedules. *)
Lemma sequential_reaches cs s0 :
  exists sched, reaches cs s0 sched (map PRet (run_calls cs s0).2) (run_calls cs s0).1.
Proof.
  assert (H : forall done cs s0, exists sched, 
    pool_run sched (map PRet done ++ (start cs s0).1, s0) =
      Some (map PRet (done ++ (run_calls cs s0).2), (run_calls cs s0).1)).
  { clear. intros rs cs. revert rs. induction cs as [|c cs IH]; intros rs s0.
    - exists []. cbn. by rewrite !app_nil_r.
    - destruct (alone_returns _ _ s0 (dispatch_alone (c_env c) (c_req c) (c_res c)))
        as (n & r & s1 & _ & Hs).
      assert (Hd : dispatch (c_env c) s0 (c_req c) (c_res c) = (s1, r)).
      { unfold dispatch. clear -Hs. remember (PRet r) as q eqn:Hq.
        induction Hs as [p s|n p s p' s' p'' s'' Hp _ IH]; [by subst|].
        rewrite <-(run_pstep _ _ _ _ Hp). by apply IH. }
      destruct (IH (rs ++ [r]) s1) as [sched Hsched].
      exists (replicate n (length rs) ++ sched). cbn [start map fst].
      rewrite pool_run_app. erewrite pool_replicate; [| |exact Hs].
      2: { rewrite lookup_app_r by (by rewrite map_length). by rewrite map_length, Nat.sub_diag. }
      cbn [run_calls]. rewrite Hd. destruct (run_calls cs s1) as [s2 rs'] eqn:Hrc.
      cbn [fst snd] in *. rewrite <-app_assoc in Hsched. cbn in Hsched. rewrite <-Hsched.
      f_equal. f_equal. rewrite insert_app_r_alt by (by rewrite map_length).
      rewrite map_length, Nat.sub_diag, map_app. cbn. by rewrite <-app_assoc. }
  destruct (H [] cs s0) as [sched Hs]. by exists sched.
Qed.
