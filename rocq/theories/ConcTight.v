(** C52 is as bad as it is said to be: every sum of the amounts of some of the clients is the
    outcome of some schedule. *)
From Verif Require Import Bytes BytesFacts Value Request Response Metrics Prog Commands
  EngineSpec HistorySpec ProgFacts CommandFacts SafeFacts EngineFacts EngineProps HistoryFacts Concurrent ConcSpec ConcFacts ConcProps.
From stdpp Require Import gmap list.
From Coq Require Import NArith ZArith Lia.
From Coq Require Import ZifyBool ZifyNat ZifyN.

(** Where a run of the clients has come. *)
Definition in_order (cs : list call) (s0 : store) (xs : list tstate) (s : store) : Prop :=
  length xs = length cs /\ Forall tquiet xs /\ counted s0 xs s.

Definition can_go (cs : list call) (xs : list tstate) (s : store) (xs' : list tstate) (s' : store)
  : Prop :=
  exists sched, pool_run sched (zip_with tprog cs xs, s) = Some (zip_with tprog cs xs', s').

Lemma can_go_refl cs xs s : can_go cs xs s xs s.
Proof. by exists []. Qed.

Lemma can_go_trans cs x1 s1 x2 s2 x3 s3 :
  can_go cs x1 s1 x2 s2 -> can_go cs x2 s2 x3 s3 -> can_go cs x1 s1 x3 s3.
Proof.
  intros [a Ha] [b Hb]. exists (a ++ b). by rewrite pool_run_app, Ha.
Qed.

Lemma can_go_one cs s0 xs s i c x x' s' : room_for cs s0 -> in_order cs s0 xs s ->
  cs !! i = Some c -> xs !! i = Some x -> tstep c x s = Some (x', s') ->
  can_go cs xs s (<[i := x']> xs) s' /\ in_order cs s0 (<[i := x']> xs) s'.
Proof.
  intros Hroom (Hl & Hq & Hcnt) Hc Hx Ht.
  pose proof (Forall_lookup_1 _ _ _ _ Hq Hx) as Hqx. split.
  - exists [i]. cbn. unfold pool_step. cbn [fst snd].
    rewrite lookup_zip_with, Hc, Hx. cbn. rewrite tstep_prog, Ht by done. do 2 f_equal.
    apply list_eq. intros j. rewrite lookup_zip_with. destruct (decide (i = j)) as [<-|Hne].
    + rewrite !list_lookup_insert; [by rewrite Hc|by eapply lookup_lt_Some|].
      rewrite zip_with_length. apply lookup_lt_Some in Hx, Hc. lia.
    + by rewrite !list_lookup_insert_ne, lookup_zip_with by done.
  - split; [by rewrite insert_length|]. split.
    + apply Forall_insert; [done|]. by eapply tstep_quiet.
    + by destruct (counted_step cs s0 xs s i c x x' s' Hroom Hl Hcnt Hc Hx Hqx Ht).
Qed.

Section sweeps.
Context (cs : list call) (s0 : store) (k : bytes) (us : list (value -> value * cres)) (ds : list Z).
Context (Hroom : room_for cs s0).
Context (Hus : forall i c, cs !! i = Some c -> exists u d, us !! i = Some u /\ ds !! i = Some d /\
  forall z, i64_range z -> exists b, u (VInteger z) = (VInteger (i64_wrap (z + d)), COk b)).

(** About to look, and about to write a zero. *)
Definition looking (xs : list tstate) (i : nat) : Prop :=
  exists c u, cs !! i = Some c /\ us !! i = Some u /\ xs !! i = Some (TRun (PKoi k (VInteger 0) u PRet)).
Definition zeroing (xs : list tstate) (i : nat) : Prop :=
  exists c u, cs !! i = Some c /\ us !! i = Some u /\
    xs !! i = Some (TRun (PKoiIns k (VInteger 0) u PRet)).
Definition finished (xs : list tstate) (i : nat) : Prop :=
  exists b, xs !! i = Some (TDone (COk b)).

Definition frame (l : list nat) (xs xs' : list tstate) : Prop :=
  forall i, i ∉ l -> xs' !! i = xs !! i.

Lemma looking_frame l xs xs' i : frame l xs xs' -> i ∉ l -> looking xs i -> looking xs' i.
Proof. intros Hf Hi (c & u & ? & ? & H). exists c, u. by rewrite Hf. Qed.
Lemma zeroing_frame l xs xs' i : frame l xs xs' -> i ∉ l -> zeroing xs i -> zeroing xs' i.
Proof. intros Hf Hi (c & u & ? & ? & H). exists c, u. by rewrite Hf. Qed.
Lemma finished_frame l xs xs' i : frame l xs xs' -> i ∉ l -> finished xs i -> finished xs' i.
Proof. intros Hf Hi (b & H). exists b. by rewrite Hf. Qed.

Lemma frame_cons i l x xs xs' : frame l (<[i := x]> xs) xs' -> frame (i :: l) xs xs'.
Proof.
  intros Hf j Hj. apply not_elem_of_cons in Hj as [Hne Hj]. rewrite Hf by done.
  by rewrite list_lookup_insert_ne.
Qed.

Lemma frame_one i x xs : frame [i] xs (<[i := x]> xs).
Proof. intros j Hj. apply not_elem_of_cons in Hj as [Hne _]. by rewrite list_lookup_insert_ne. Qed.

Lemma sweep_look l : forall xs s, NoDup l -> in_order cs s0 xs s -> st_keys s !! k = None ->
  Forall (looking xs) l ->
  exists xs', can_go cs xs s xs' s /\ in_order cs s0 xs' s /\ frame l xs xs' /\ Forall (zeroing xs') l.
Proof.
  induction l as [|i l IH]; intros xs s Hnd Ho Hk Hl.
  { exists xs. split; [apply can_go_refl|]. done. }
  apply NoDup_cons in Hnd as [Hil Hnd]. apply Forall_cons in Hl as [(c & u & Hc & Hu & Hx) Hl].
  destruct (can_go_one cs s0 xs s i c _ (TRun (PKoiIns k (VInteger 0) u PRet)) s Hroom Ho Hc Hx)
    as [Hg Ho']. { cbn. by rewrite Hk. }
  set (x := TRun (PKoiIns k (VInteger 0) u PRet)) in *.
  destruct (IH (<[i := x]> xs) s Hnd Ho' Hk) as (xs' & Hg' & Ho'' & Hf & Hz).
  { apply Forall_forall. intros j Hj. rewrite Forall_forall in Hl.
    eapply looking_frame; [apply frame_one| |by apply Hl]. intros Hin.
    apply elem_of_list_singleton in Hin. by subst. }
  exists xs'. split; [by eapply can_go_trans|]. split; [done|]. split; [by eapply frame_cons|].
  constructor; [|done]. eapply zeroing_frame; [done..|]. exists c, u. split; [done|]. split; [done|].
  apply list_lookup_insert. by eapply lookup_lt_Some.
Qed.

Lemma sweep_zero l : forall xs s, NoDup l -> in_order cs s0 xs s -> Forall (zeroing xs) l ->
  exists xs' s', can_go cs xs s xs' s' /\ in_order cs s0 xs' s' /\ frame l xs xs' /\
    Forall (looking xs') l /\
    (l <> [] -> st_keys s' !! k = Some (VInteger 0)).
Proof.
  induction l as [|i l IH]; intros xs s Hnd Ho Hl.
  { exists xs, s. split; [apply can_go_refl|]. done. }
  apply NoDup_cons in Hnd as [Hil Hnd]. apply Forall_cons in Hl as [(c & u & Hc & Hu & Hx) Hl].
  set (s1 := with_keys s (<[k := VInteger 0]> (st_keys s))).
  destruct (can_go_one cs s0 xs s i c _ (TRun (PKoi k (VInteger 0) u PRet)) s1 Hroom Ho Hc Hx)
    as [Hg Ho']; [done|].
  set (x := TRun (PKoi k (VInteger 0) u PRet)) in *.
  destruct (IH (<[i := x]> xs) s1 Hnd Ho') as (xs' & s' & Hg' & Ho'' & Hf & Hz & Hk').
  { apply Forall_forall. intros j Hj. rewrite Forall_forall in Hl.
    eapply zeroing_frame; [apply frame_one| |by apply Hl]. intros Hin.
    apply elem_of_list_singleton in Hin. by subst. }
  destruct l as [|j l].
  - exists (<[i := x]> xs), s1. split; [done|]. split; [done|]. split; [apply frame_one|].
    split.
    + constructor; [|done]. exists c, u. split; [done|]. split; [done|].
      apply list_lookup_insert. by eapply lookup_lt_Some.
    + intros _. unfold s1. by rewrite st_keys_with, lookup_insert.
  - exists xs', s'. split; [by eapply can_go_trans|]. split; [done|].
    split; [by eapply frame_cons|]. split; [|intros _; by apply Hk'].
    constructor; [|done]. eapply looking_frame; [done..|]. exists c, u. split; [done|]. split; [done|].
    apply list_lookup_insert. by eapply lookup_lt_Some.
Qed.

Lemma sweep_add l : forall xs s z, NoDup l -> in_order cs s0 xs s ->
  st_keys s !! k = Some (VInteger z) -> i64_range z -> Forall (looking xs) l ->
  exists xs' s', can_go cs xs s xs' s' /\ in_order cs s0 xs' s' /\ frame l xs xs' /\
    Forall (finished xs') l /\
    st_keys s' !! k =
      Some (VInteger (i64_wrap (z + foldr (fun i a => default 0 (ds !! i) + a) 0 l)%Z)).
Proof.
  induction l as [|i l IH]; intros xs s z Hnd Ho Hk Hz Hl.
  { exists xs, s. split; [apply can_go_refl|]. split; [done|]. split; [done|]. split; [done|].
    cbn. by rewrite Z.add_0_r, i64_wrap_id. }
  apply NoDup_cons in Hnd as [Hil Hnd]. apply Forall_cons in Hl as [(c & u & Hc & Hu & Hx) Hl].
  destruct (Hus _ _ Hc) as (u' & d & Hu' & Hd & Hupd). assert (u' = u) as -> by congruence.
  destruct (Hupd z Hz) as [b Hb].
  set (s1 := with_keys s (<[k := VInteger (i64_wrap (z + d))]> (st_keys s))).
  destruct (can_go_one cs s0 xs s i c _ (TRun (PRet (COk b))) s1 Hroom Ho Hc Hx) as [Hg1 Ho1].
  { cbn. by rewrite Hk, Hb. }
  set (xs1 := <[i := TRun (PRet (COk b))]> xs) in *.
  assert (Hx1 : xs1 !! i = Some (TRun (PRet (COk b))))
    by (apply list_lookup_insert; by eapply lookup_lt_Some).
  assert (Ht : exists s2, tstep c (TRun (PRet (COk b))) s1 = Some (TDone (COk b), s2) /\
    st_keys s2 = st_keys s1).
  { destruct Ho1 as (Hl1 & Hq1 & Hc1).
    pose proof (counted_room cs s0 xs1 s1 i _ Hroom Hl1 Hc1 Hx1 MCommandsSuccessful) as Hr.
    cbn. rewrite counters_inc_at by (change u64_mod with (2 ^ 64)%N; lia). eexists. split; [done|]. done. }
  destruct Ht as (s2 & Ht & Hs2).
  destruct (can_go_one cs s0 xs1 s1 i c _ _ _ Hroom Ho1 Hc Hx1 Ht) as [Hg2 Ho2].
  set (xs2 := <[i := TDone (COk b)]> xs1) in *.
  assert (Hf2 : frame [i] xs xs2).
  { intros j Hj. apply not_elem_of_cons in Hj as [Hne _]. unfold xs2, xs1.
    by rewrite !list_lookup_insert_ne. }
  destruct (IH xs2 s2 (i64_wrap (z + d)) Hnd Ho2) as (xs' & s' & Hg' & Ho' & Hf & Hfin & Hk').
  { rewrite Hs2. unfold s1. by rewrite st_keys_with, lookup_insert. }
  { apply i64_wrap_range. }
  { apply Forall_forall. intros j Hj. rewrite Forall_forall in Hl.
    eapply looking_frame; [exact Hf2| |by apply Hl]. intros Hin.
    apply elem_of_list_singleton in Hin. by subst. }
  exists xs', s'. split; [eapply can_go_trans; [done|]; by eapply can_go_trans|]. split; [done|].
  split; [|split].
  - intros j Hj. apply not_elem_of_cons in Hj as [Hne Hj]. rewrite Hf by done.
    unfold xs2, xs1. by rewrite !list_lookup_insert_ne.
  - constructor; [|done]. eapply finished_frame; [done..|]. exists b.
    apply list_lookup_insert. unfold xs1. rewrite insert_length. by eapply lookup_lt_Some.
  - rewrite Hk'. rewrite i64_wrap_add. cbn. rewrite Hd. cbn. do 3 f_equal. lia.
Qed.

End sweeps.

(** The indices that are picked. *)
Fixpoint chosen (j : nat) (want : bool) (bs : list bool) : list nat :=
  match bs with
  | [] => []
  | b :: bs => if Bool.eqb b want then j :: chosen (S j) want bs else chosen (S j) want bs
  end.

Lemma elem_of_chosen want bs : forall j i,
  i ∈ chosen j want bs <-> (j <= i)%nat /\ bs !! (i - j)%nat = Some want.
Proof.
  induction bs as [|b bs IH]; intros j i; cbn [chosen].
  { rewrite elem_of_nil, lookup_nil. intuition discriminate. }
  assert (H : i ∈ chosen (S j) want bs <-> (j < i)%nat /\ (b :: bs) !! (i - j)%nat = Some want).
  { rewrite IH. split; intros [Hle Hb]; split; try lia.
    - replace (i - j)%nat with (S (i - S j)) by lia. done.
    - replace (i - j)%nat with (S (i - S j)) in Hb by lia. done. }
  destruct (Bool.eqb b want) eqn:E.
  - apply Bool.eqb_prop in E as ->. rewrite elem_of_cons, H. split.
    + intros [->|[? ?]]; [|split; [lia|done]]. rewrite Nat.sub_diag. by split.
    + intros [Hle Hb]. destruct (decide (i = j)); [by left|right]. split; [lia|done].
  - apply Bool.eqb_false_iff in E. rewrite H. split.
    + intros [? ?]. split; [lia|done].
    + intros [Hle Hb]. split; [|done]. destruct (decide (i = j)) as [->|]; [|lia].
      rewrite Nat.sub_diag in Hb. cbn in Hb. congruence.
Qed.

Lemma chosen_NoDup want bs : forall j, NoDup (chosen j want bs).
Proof.
  induction bs as [|b bs IH]; intros j; cbn [chosen]; [constructor|].
  destruct (Bool.eqb b want); [|apply IH]. constructor; [|apply IH].
  rewrite elem_of_chosen. intros [? _]. lia.
Qed.

Lemma chosen_sum ds bs : forall pre, length bs = length ds ->
  foldr (fun i a => default 0 ((pre ++ ds) !! i) + a)%Z 0%Z (chosen (length pre) true bs) =
  picked ds bs.
Proof.
  revert ds. induction bs as [|b bs IH]; intros [|d ds] pre; try done. intros [= Hl].
  assert (E : foldr (fun i a => default 0 ((pre ++ d :: ds) !! i) + a)%Z 0%Z
    (chosen (S (length pre)) true bs) = picked ds bs).
  { rewrite <-(IH ds (pre ++ [d]) Hl), app_length. cbn [length]. rewrite Nat.add_comm.
    by rewrite <-app_assoc. }
  cbn [chosen picked]. destruct b; cbn [Bool.eqb foldr].
  - rewrite E, list_lookup_middle by done. done.
  - by rewrite E.
Qed.

Lemma c52_any cs s0 k ds bs :
  room_for cs s0 -> st_keys s0 !! k = None -> ordinary k ->
  Forall2 (fun c d => debug (c_env c) = false /\ adds_int c k d) cs ds ->
  length bs = length ds -> (exists i, bs !! i = Some true) ->
  exists sched ts s rs, reaches cs s0 sched ts s /\ all_returned ts rs /\
    Forall (fun r => is_ok r = true) rs /\
    st_keys s !! k = Some (VInteger (i64_wrap (picked ds bs))).
Proof.
  intros Hroom Hk [_ Hres] Hds Hbl [w Hw].
  (* the programs *)
  assert (Hus : exists us : list (value -> value * cres), length us = length cs /\
    map tstart cs = map (fun u => TRun (PKoi k (VInteger 0) u PRet)) us /\
    Forall2 (fun u d => forall z, i64_range z -> exists b,
      u (VInteger z) = (VInteger (i64_wrap (z + d)), COk b)) us ds).
  { clear -Hds Hres. induction Hds as [|c d cs ds [Hdb Ha] _ IH].
    - exists []. repeat split; constructor.
    - destruct IH as (us & Hl & E & H).
      destruct (adds_int_prog _ _ _ Ha) as [[_ [Hd|?]]|(upd & E' & Hupd)]; [congruence|done|].
      exists (upd :: us). cbn [map length]. split; [by rewrite Hl|]. split.
      { f_equal; [|done]. unfold tstart. by rewrite E'. }
      constructor; [|done]. intros z Hz. destruct (Hupd z Hz) as [(Hd & _)|?]; [congruence|done]. }
  destruct Hus as (us & Hul & Estart & Hupd).
  pose proof (Forall2_length _ _ _ Hds) as Hdl.
  assert (Hus : forall i c, cs !! i = Some c -> exists u d, us !! i = Some u /\ ds !! i = Some d /\
    forall z, i64_range z -> exists b, u (VInteger z) = (VInteger (i64_wrap (z + d)), COk b)).
  { intros i c Hc. apply lookup_lt_Some in Hc as Hlt.
    destruct (lookup_lt_is_Some_2 us i) as [u Hu]; [lia|].
    destruct (lookup_lt_is_Some_2 ds i) as [d Hd]; [lia|].
    exists u, d. split; [done|]. split; [done|]. by eapply Forall2_lookup_lr in Hupd. }
  assert (Ho : in_order cs s0 (map tstart cs) s0).
  { split; [by rewrite map_length|]. split; [|apply counted_start].
    apply Forall_forall. intros x (c & -> & _)%elem_of_list_fmap. apply tstart_quiet. }
  assert (Hrange : forall want i, i ∈ chosen 0 want bs -> (i < length cs)%nat).
  { intros want i Hi. apply elem_of_chosen in Hi as [_ Hi]. apply lookup_lt_Some in Hi. lia. }
  set (ls := chosen 0 false bs). set (ws := chosen 0 true bs).
  assert (Hdisj : forall i, i ∈ ls -> i ∈ ws -> False).
  { intros i Hi Hj. apply elem_of_chosen in Hi as [_ Hi], Hj as [_ Hj]. congruence. }
  assert (Hall : forall i, (i < length cs)%nat -> i ∈ ls \/ i ∈ ws).
  { intros i Hi. destruct (lookup_lt_is_Some_2 bs i) as [b Hb]; [lia|].
    unfold ls, ws. rewrite !elem_of_chosen. rewrite Nat.sub_0_r.
    destruct b; [right|left]; (split; [lia|done]). }
  (* everybody looks *)
  destruct (sweep_look cs s0 k us Hroom (seq 0 (length cs)) _ s0 (NoDup_seq _ _) Ho Hk)
    as (x1 & Hg1 & Ho1 & _ & Hz1).
  { apply Forall_forall. intros i Hi%elem_of_seq.
    destruct (lookup_lt_is_Some_2 cs i) as [c Hc]; [lia|].
    destruct (lookup_lt_is_Some_2 us i) as [u Hu]; [lia|].
    exists c, u. split; [done|]. split; [done|]. rewrite Estart.
    change (map ?f us) with (f <$> us). by rewrite list_lookup_fmap, Hu. }
  assert (Hz1' : forall l, (forall i, i ∈ l -> (i < length cs)%nat) -> Forall (zeroing cs k us x1) l).
  { intros l Hl. apply Forall_forall. intros i Hi. rewrite Forall_forall in Hz1. apply Hz1.
    apply elem_of_seq. specialize (Hl i Hi). lia. }
  (* the losers *)
  destruct (sweep_zero cs s0 k us Hroom ls x1 s0 (chosen_NoDup _ _ _) Ho1 (Hz1' _ (Hrange _)))
    as (x2 & s2 & Hg2 & Ho2 & Hf2 & Hl2 & Hk2).
  assert (H3 : exists x3 s3, can_go cs x2 s2 x3 s3 /\ in_order cs s0 x3 s3 /\ frame ls x2 x3 /\
    Forall (finished x3) ls).
  { destruct (decide (ls = [])) as [->|Hne].
    - exists x2, s2. split; [apply can_go_refl|]. done.
    - destruct (sweep_add cs s0 k us ds Hroom Hus ls x2 s2 0 (chosen_NoDup _ _ _) Ho2 (Hk2 Hne))
        as (x3 & s3 & ? & ? & ? & ? & _); [by vm_compute|done|]. by exists x3, s3. }
  destruct H3 as (x3 & s3 & Hg3 & Ho3 & Hf3 & Hl3).
  (* the others *)
  destruct (sweep_zero cs s0 k us Hroom ws x3 s3 (chosen_NoDup _ _ _) Ho3)
    as (x4 & s4 & Hg4 & Ho4 & Hf4 & Hl4 & Hk4).
  { apply Forall_forall. intros i Hi. eapply zeroing_frame; [exact Hf3| |].
    { intros ?. by eapply Hdisj. }
    eapply zeroing_frame; [exact Hf2| |]. { intros ?. by eapply Hdisj. }
    specialize (Hz1' _ (Hrange true)). rewrite Forall_forall in Hz1'. by apply Hz1'. }
  assert (Hne : ws <> []).
  { intros E. assert (Hin : w ∈ ws).
    { apply elem_of_chosen. rewrite Nat.sub_0_r. split; [lia|done]. }
    rewrite E in Hin. by apply elem_of_nil in Hin. }
  destruct (sweep_add cs s0 k us ds Hroom Hus ws x4 s4 0 (chosen_NoDup _ _ _) Ho4 (Hk4 Hne))
    as (x5 & s5 & Hg5 & Ho5 & Hf5 & Hl5 & Hk5); [by vm_compute|done|].
  assert (Hfin : forall i, (i < length cs)%nat -> finished x5 i).
  { intros i Hi. destruct (Hall i Hi) as [Hin|Hin].
    - assert (i ∉ ws) by (intros ?; by eapply Hdisj).
      eapply finished_frame; [exact Hf5|done|]. eapply finished_frame; [exact Hf4|done|].
      rewrite Forall_forall in Hl3. by apply Hl3.
    - rewrite Forall_forall in Hl5. by apply Hl5. }
  assert (Hrs : exists rs, x5 = map TDone rs /\ Forall (fun r => is_ok r = true) rs).
  { destruct Ho5 as (Hlen & _). rewrite <-Hlen in Hfin. clear -Hfin.
    induction x5 as [|x x5 IH]; [exists []; by split|].
    destruct IH as (rs & -> & Hrs).
    { intros i Hi. destruct (Hfin (S i)) as [b Hb]; [cbn; lia|]. by exists b. }
    destruct (Hfin 0%nat) as [b Hb]; [cbn; lia|]. injection Hb as ->.
    exists (COk b :: rs). split; [done|]. by constructor. }
  destruct Hrs as (rs & -> & Hok).
  assert (Hgo : can_go cs (map tstart cs) s0 (map TDone rs) s5).
  { do 4 (eapply can_go_trans; [eassumption|]). done. }
  destruct Hgo as [sched Hsched].
  exists sched, (map PRet rs), s5, rs. split_and!; [|done|done|].
  - unfold reaches, start.
    assert (E1 : zip_with tprog cs (map tstart cs) =
      map (fun c => dispatch_prog (c_env c) (c_req c) (c_res c)) cs).
    { clear. induction cs as [|c cs IH]; cbn; [done|]. by f_equal. }
    assert (E2 : zip_with tprog cs (map TDone rs) = map PRet rs).
    { assert (Hlr : length rs = length cs).
      { destruct Ho5 as (Hlen & _). by rewrite map_length in Hlen. }
      clear -Hlr. revert rs Hlr. induction cs as [|c cs IH]; intros [|r rs]; try done.
      intros [= Hl]. cbn. f_equal. by apply IH. }
    by rewrite <-E1, <-E2.
  - rewrite Hk5, Z.add_0_l. do 3 f_equal. apply (chosen_sum ds bs []). done.
Qed.

(** Every count from 1 to the number of clients is the outcome of some schedule. *)
Lemma c52_any_count cs s0 k z :
  room_for cs s0 -> st_keys s0 !! k = None -> ordinary k -> (lenN cs < 2 ^ 63)%N ->
  Forall (fun c => debug (c_env c) = false /\ adds_int c k 1) cs ->
  (1 <= z <= Z.of_N (lenN cs))%Z ->
  exists sched ts s rs, reaches cs s0 sched ts s /\ all_returned ts rs /\
    Forall (fun r => is_ok r = true) rs /\ st_keys s !! k = Some (VInteger z).
Proof.
  intros Hroom Hk Ho Hlen Hcs Hz. unfold lenN in *.
  set (n := length cs) in *. set (m := Z.to_nat z).
  destruct (c52_any cs s0 k (replicate n 1%Z) (replicate m true ++ replicate (n - m) false))
    as (sched & ts & s & rs & ? & ? & ? & Hv); try done.
  - clear -Hcs. subst n. induction Hcs as [|c cs Hc _ IH]; cbn; constructor; auto.
  - rewrite app_length, !replicate_length. lia.
  - exists 0%nat. destruct m as [|m'] eqn:E; [lia|done].
  - exists sched, ts, s, rs. split_and!; [done..|]. rewrite Hv. do 2 f_equal.
    assert (Hp : forall a b c, picked (replicate (a + b) 1%Z) (replicate a true ++ replicate c false)
      = Z.of_nat a).
    { clear. intros a b c. induction a as [|a IH]; [apply picked_none|].
      cbn [Nat.add replicate app picked]. rewrite IH. lia. }
    replace n with (m + (n - m))%nat at 1 by lia. rewrite Hp, i64_wrap_id; [lia|].
    unfold i64_range, i64_half. lia.
Qed.
