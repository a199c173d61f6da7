(** Linearizability (C56), increments (C51, C52), Rename (C53) and Set (C54). *)
From Verif Require Import Bytes BytesFacts Utf8 Float64 Value CommandId Request Response
  Metrics Prog Commands EngineSpec WireSpec RequestSpec RequestFacts HistorySpec ProgFacts
  CommandFacts SafeFacts EngineFacts EngineProps HistoryFacts Concurrent ConcSpec ConcFacts.
From stdpp Require Import gmap list.
From Coq Require Import NArith ZArith Lia.
From Coq Require Import ZifyBool ZifyNat ZifyN.

(** ** Invariants that see the schedule *)

Lemma counted_room cs s0 xs s i (q : prog) : room_for cs s0 -> length xs = length cs ->
  counted s0 xs s -> xs !! i = Some (TRun q) -> room s.
Proof.
  intros Hroom Hl [Hcnt _] Hx m. rewrite Hcnt. specialize (Hroom m).
  assert (Hr : exists r, credit m (TDone r) = 1%N \/ forall x, credit m x = 0%N).
  { destruct m.
    - exists (COk []). by left.
    - exists (CErr EKeyNonexistent []). by left.
    - exists CPanic. right. by intros [|[]].
    - exists CPanic. right. by intros [|[]]. }
  destruct Hr as [r Hr]. pose proof (nsum_credit_le m (<[i := TDone r]> xs)) as Hle.
  pose proof (nsum_credit_insert m xs i _ (TDone r) Hx) as Hn.
  unfold lenN in Hle, Hroom. rewrite insert_length, Hl in Hle.
  change (credit m (TRun q)) with 0%N in Hn.
  destruct Hr as [Hr|Hr]; [lia|].
  assert (Hz : nsum (map (credit m) xs) = 0%N).
  { clear -Hr. induction xs as [|x xs IH]; cbn; [done|]. by rewrite Hr, IH. }
  apply lookup_lt_Some in Hx. lia.
Qed.

Lemma reaches_snoc cs s0 sched i ts s :
  reaches cs s0 (sched ++ [i]) ts s ->
  exists ts1 s1, reaches cs s0 sched ts1 s1 /\ pool_step i (ts1, s1) = Some (ts, s).
Proof. intros H. apply pool_run_snoc in H as ([ts1 s1] & H1 & H2). eauto. Qed.

Lemma conc_inv_sched cs s0 (P : list nat -> list tstate -> store -> Prop) :
  room_for cs s0 ->
  P [] (map tstart cs) s0 ->
  (forall sched xs s i c q q' s', length xs = length cs ->
     reaches cs s0 sched (zip_with tprog cs xs) s -> counted s0 xs s -> P sched xs s ->
     cs !! i = Some c -> xs !! i = Some (TRun q) -> quiet q ->
     pstep q s = Some (q', s') -> P (sched ++ [i]) (<[i := TRun q']> xs) s') ->
  (forall sched xs s i c r s', length xs = length cs ->
     reaches cs s0 sched (zip_with tprog cs xs) s -> counted s0 xs s -> P sched xs s ->
     cs !! i = Some c -> xs !! i = Some (TRun (PRet r)) ->
     r <> CPanic -> st_keys s' = st_keys s -> P (sched ++ [i]) (<[i := TDone r]> xs) s') ->
  forall sched ts s, reaches cs s0 sched ts s ->
  exists xs, length xs = length cs /\ ts = zip_with tprog cs xs /\ Forall tquiet xs /\
    counted s0 xs s /\ P sched xs s.
Proof.
  intros Hroom H0 Hrun Hret sched. induction sched as [|i sched IH] using rev_ind; intros ts s Hr.
  - injection Hr as <- <-. exists (map tstart cs). split; [by rewrite map_length|]. split.
    + clear. induction cs as [|c cs IH]; cbn; [done|]. by f_equal.
    + split; [|split; [apply counted_start|done]].
      apply Forall_forall. intros x Hx%elem_of_list_fmap.
      destruct Hx as (c & -> & _). apply tstart_quiet.
  - apply reaches_snoc in Hr as (ts1 & s1 & Hr & Hs).
    destruct (IH _ _ Hr) as (xs & Hl & -> & Hq & Hcnt & HP). clear IH.
    unfold pool_step in Hs. cbn [fst snd] in Hs.
    rewrite lookup_zip_with in Hs.
    destruct (cs !! i) as [c|] eqn:Hc; cbn in Hs; [|done].
    destruct (xs !! i) as [x|] eqn:Hx; cbn in Hs; [|done].
    pose proof (Forall_lookup_1 _ _ _ _ Hq Hx) as Hqx.
    rewrite tstep_prog in Hs by done.
    destruct (tstep c x s1) as [[x' s']|] eqn:Ht; [|done]. injection Hs as <- <-.
    destruct (counted_step cs s0 xs s1 i c x x' s') as [Hc' Hd]; try done.
    exists (<[i := x']> xs). split; [by rewrite insert_length|]. split; [|split; [|split; [done|]]].
    + apply list_eq. intros j. rewrite lookup_zip_with.
      destruct (decide (i = j)) as [<-|Hne].
      * rewrite !list_lookup_insert; [by rewrite Hc|by eapply lookup_lt_Some|].
        rewrite zip_with_length. apply lookup_lt_Some in Hx, Hc. lia.
      * by rewrite !list_lookup_insert_ne, lookup_zip_with by done.
    + apply Forall_insert; [done|]. by eapply tstep_quiet.
    + destruct (tstep_run_cases _ _ _ _ _ Ht) as [(q & q' & -> & -> & Hp)|(r & -> & Hb)].
      * by eapply Hrun.
      * destruct (Hd r eq_refl) as [-> Hk]. eapply Hret; try done. intros ->. done.
Qed.

(** ** C56 *)

(** Where the needed keys exist, the program returns or is one step from it. *)
Definition single (need : bytes -> Prop) (p : prog) : Prop :=
  forall s, (forall k, need k -> is_Some (st_keys s !! k)) ->
  (exists r, p = PRet r) \/ exists r s', pstep p s = Some (PRet r, s').

Lemma single_ret need r : single need (PRet r).
Proof. intros s _. eauto. Qed.

Lemma single_guarded need e k p : single need p -> single need (guarded e k p).
Proof.
  intros H. unfold guarded. destruct (starts_with _ _); [apply single_ret|].
  destruct (debug e && _); [apply single_ret|done].
Qed.

Lemma single_get (need : bytes -> Prop) k c : (forall v, exists r, c v = PRet r) -> single need (PGet k c).
Proof. intros H s _. right. destruct (H (st_keys s !! k)) as [r Hr]. exists r, s. cbn. by rewrite Hr. Qed.

Lemma single_koi (need : bytes -> Prop) e k d u : need k -> single need (key_or_insert_with e k d u).
Proof.
  intros H. apply single_guarded. intros s Hs. right. destruct (Hs k H) as [v Hv]. cbn. rewrite Hv.
  destruct (u v) as [v' r]. eauto.
Qed.

Lemma single_read {A} need e res k (f : value -> option A) c : single need (read_variant e res k f c).
Proof.
  apply single_guarded, single_get. intros [v|]; [|eexists; reflexivity]. destruct (f v); by eexists.
Qed.

Lemma one_access_single e req res : one_access req -> single (fun _ => False) (command_prog e req res).
Proof.
  unfold one_access, command_prog. destruct (r_command req) eqn:Hc; try done.
  - intros _. unfold cmd_get. destruct (key req); [|apply single_ret].
    apply single_guarded, single_get. intros [v|]; [|by eexists].
    destruct (r_key_type req); [destruct (decide _)|]; by eexists.
  - intros _. unfold cmd_delete. destruct (r_key_type req); [apply single_ret|].
    destruct (key req) as [k|]; [|apply single_ret]. intros s _. right. cbn.
    destruct (st_keys s !! k); eexists _, _; reflexivity.
  - intros Hle. unfold cmd_exists. destruct (r_key_type req); [apply single_ret|].
    destruct (args_all req) as [a|] eqn:Ha; [|apply single_ret].
    apply args_all_length in Ha. destruct (arguments_collect a) as [|k [|k' l]]; cbn in Ha; [| |lia].
    + apply single_ret.
    + intros s _. right. cbn. destruct (st_keys s !! k); eexists _, _; reflexivity.
  - intros Hle. unfold cmd_is. destruct (r_key_type req) as [t|]; [|apply single_ret].
    destruct (args_all req) as [a|] eqn:Ha; [|apply single_ret].
    apply args_all_length in Ha. destruct (arguments_collect a) as [|k [|k' l]]; cbn in Ha; [| |lia].
    + apply single_ret.
    + apply single_get. intros v. destruct (match v with Some _ => _ | None => _ end); by eexists.
  - intros _. unfold cmd_type. destruct (key req) as [k|]; [|apply single_ret].
    destruct (r_key_type req); [apply single_ret|]. apply single_get. intros [v|]; by eexists.
  - intros Hk. unfold cmd_length, resolve_type. destruct (key req); [|apply single_ret].
    destruct (r_key_type req) as [[]|]; try done; first [apply single_ret|apply single_read].
  - intros Hk. unfold cmd_keys, resolve_type. destruct (key req); [|apply single_ret].
    destruct (r_key_type req) as [[]|]; try done; first [apply single_ret|apply single_read].
  - intros _. unfold cmd_echo. destruct (args_all req); apply single_ret.
Qed.

Lemma one_update_single e req res : one_update req ->
  single (fun k => arg req 0 = Some k) (command_prog e req res).
Proof.
  unfold one_update, command_prog. destruct (r_command req) eqn:Hc; try done; intros H.
  - unfold cmd_increment. destruct (key req) as [k|] eqn:Hk; [|apply single_ret].
    apply key_arg in Hk. destruct (wants_float req); by apply single_koi.
  - unfold cmd_decrement. destruct (key req) as [k|] eqn:Hk; [|apply single_ret].
    apply key_arg in Hk. destruct (wants_float req); by apply single_koi.
  - unfold cmd_increment_by. destruct (key req) as [k|] eqn:Hk; [|apply single_ret].
    apply key_arg in Hk. destruct (typed_arg convert_i64 req 1); [by apply single_koi|].
    destruct (typed_arg convert_f64 req 1); [by apply single_koi|apply single_ret].
  - unfold cmd_decrement_by. destruct (key req) as [k|] eqn:Hk; [|apply single_ret].
    apply key_arg in Hk. destruct (typed_arg convert_i64 req 1).
    + destruct (i64_checked _ _); [by apply single_koi|apply single_ret].
    + destruct (typed_arg convert_f64 req 1); [by apply single_koi|apply single_ret].
  - unfold cmd_append, resolve_type. destruct (arg req 0) as [k|] eqn:Hk; [|apply single_ret].
    destruct (args_from req 1); [|apply single_ret].
    destruct (r_key_type req) as [[]|]; try done; first [apply single_ret|by apply single_koi].
Qed.

Definition steps_ok (i : nat) (sched : list nat) (x0 : pool) (at_ : nat)
  (ks : gmap bytes value) : Prop :=
  forall n x y, sched !! n = Some i ->
    pool_run (take n sched) x0 = Some x -> pool_run (take (S n) sched) x0 = Some y ->
    st_keys y.2 = if decide (n = at_) then ks else st_keys x.2.

(** Client [i] has done its step. *)
Definition stepped (c : call) (i : nat) (sched : list nat) (x0 : pool) (x : tstate) : Prop :=
  exists at_ ts1 s1 r,
    (x = TRun (PRet r) \/ x = TDone r) /\ at_ <= length sched /\
    pool_run (take at_ sched) x0 = Some (ts1, s1) /\ room s1 /\
    (at_ = 0 \/ forall r', ts1 !! i <> Some (PRet r')) /\
    let alone := run (command_prog (c_env c) (c_req c) (c_res c)) s1 in
    r = alone.2 /\
    (st_keys alone.1 = st_keys s1 \/ sched !! at_ = Some i) /\
    steps_ok i sched x0 at_ (st_keys alone.1).

Lemma take_snoc_le {A} n (l : list A) x : n <= length l -> take n (l ++ [x]) = take n l.
Proof. intros. by rewrite take_app_le. Qed.

(** Adding a step that is not one of client [i] that changes keys. *)
Lemma stepped_more c i sched x0 x x' j z y :
  stepped c i sched x0 x -> pool_run sched x0 = Some z -> pool_run (sched ++ [j]) x0 = Some y ->
  (j = i -> st_keys y.2 = st_keys z.2) ->
  (forall r, (x = TRun (PRet r) \/ x = TDone r) -> (x' = TRun (PRet r) \/ x' = TDone r)) ->
  stepped c i (sched ++ [j]) x0 x'.
Proof.
  intros (at_ & ts1 & s1 & r & Hx & Hle & Hrun & Hroom & Hin & Hr & Heff & Hok) Hz Hy Hk Hx'.
  exists at_, ts1, s1, r. split; [by apply Hx'|]. split; [rewrite app_length; cbn; lia|].
  split; [by rewrite take_snoc_le|]. split; [done|]. split; [done|]. split; [done|]. split.
  - destruct Heff as [?|?]; [by left|right]. by apply lookup_app_l_Some.
  - intros n a b Hn Ha Hb.
    destruct (decide (n < length sched)) as [Hlt|Hge].
    + rewrite lookup_app_l in Hn by done. rewrite take_snoc_le in Ha by lia.
      rewrite take_snoc_le in Hb by lia. by eapply Hok.
    + assert (n = length sched) as ->.
      { apply lookup_lt_Some in Hn. rewrite app_length in Hn. cbn in Hn. lia. }
      rewrite lookup_app_r, Nat.sub_diag in Hn by lia. injection Hn as ->.
      rewrite take_app in Ha. rewrite firstn_all2 in Hb by (rewrite app_length; cbn; lia).
      assert (a = z) as -> by congruence. assert (b = y) as -> by congruence.
      rewrite Hk by done. destruct (decide (length sched = at_)) as [<-|]; [|done].
      destruct Heff as [Heff|Heff].
      * rewrite Heff. rewrite firstn_all in Hrun. rewrite Hz in Hrun. by injection Hrun as ->.
      * apply lookup_lt_Some in Heff. lia.
Qed.

Lemma c56_stepped cs s0 i c sched ts s r :
  room_for cs s0 -> cs !! i = Some c ->
  (one_access (c_req c) \/
   (one_update (c_req c) /\
    forall k, arg (c_req c) 0 = Some k -> always_there sched (start cs s0) k)) ->
  reaches cs s0 sched ts s -> ts !! i = Some (PRet r) ->
  stepped c i sched (start cs s0) (TDone r).
Proof.
  intros Hroom Hc Hone Hr Hi.
  assert (Hsingle : exists need, single need (command_prog (c_env c) (c_req c) (c_res c)) /\
    forall k, need k -> always_there sched (start cs s0) k).
  { destruct Hone as [H|[H Hk]].
    - exists (fun _ => False). split; [by apply one_access_single|done].
    - eexists. split; [by apply one_update_single|]. exact Hk. }
  destruct Hsingle as (need & Hs & Hneed). clear Hone.
  destruct (conc_inv_sched cs s0 (fun sched xs s =>
    (forall k, need k -> always_there sched (start cs s0) k) ->
    forall x, xs !! i = Some x ->
      (x = tstart c /\ i ∉ sched) \/ stepped c i sched (start cs s0) x) Hroom)
    with (sched := sched) (ts := ts) (s := s) as (xs & Hl & -> & Hq & Hcnt & HP); [| | |done|].
  - intros _ x Hx. rewrite (start_lookup _ _ _ Hc) in Hx. injection Hx as <-. left.
    split; [done|]. apply not_elem_of_nil.
  - intros sch xs s1 j c' q q' s' Hl1 Hre Hcn HP Hc' Hx Hqq Hst Hth x Hx'.
    assert (Hy : exists y, pool_run (sch ++ [j]) (start cs s0) = Some y /\ y.2 = s').
    { rewrite pool_run_app, Hre. cbn. unfold pool_step. cbn [fst snd].
      rewrite lookup_zip_with, Hc', Hx. cbn [tprog mbind option_bind].
      pose proof (tstep_prog c' (TRun q) s1 Hqq) as E. cbn [tprog] in E. rewrite E.
      destruct q; cbn in Hst; try done; cbn [tstep pstep]; rewrite ?Hst.
      all: try (injection Hst as <- <-; by eexists).
      all: cbn in Hst |- *; destruct (st_keys s1 !! k) as [v|]; [destruct (upd v)|];
        injection Hst as <- <-; by eexists. }
    destruct Hy as (y & Hy & Hys).
    assert (Hth' : forall k, need k -> always_there sch (start cs s0) k).
    { intros k Hk n z Hz. apply (Hth k Hk (Nat.min n (length sch)) z).
      rewrite take_snoc_le by lia. destruct (decide (n <= length sch)).
      - by rewrite Nat.min_l.
      - rewrite Nat.min_r, firstn_all by lia. by rewrite firstn_all2 in Hz by lia. }
    specialize (HP Hth'). destruct (decide (j = i)) as [->|Hne].
    + rewrite list_lookup_insert in Hx' by (by eapply lookup_lt_Some). injection Hx' as <-.
      assert (c' = c) as -> by congruence.
      destruct (HP _ Hx) as [[[= ->] Hni]|Hstep].
      * right. destruct (Hs s1) as [(r' & Hr')|(r' & s'' & Hp)].
        { intros k Hk. apply (Hth' k Hk (length sch) (zip_with tprog cs xs, s1)).
          by rewrite firstn_all. }
        { rewrite Hr' in Hst. done. }
        rewrite Hst in Hp. injection Hp as -> <-.
        exists (length sch), (zip_with tprog cs xs), s1, r'. split; [by left|].
        split; [rewrite app_length; lia|]. split; [by rewrite take_app|].
        split; [by eapply counted_room|].
        split.
        { right. intros r0. rewrite lookup_zip_with, Hc, Hx. cbn. intros [= E].
          destruct (command_prog (c_env c) (c_req c) (c_res c)); done. }
        pose proof (run_pstep _ _ _ _ Hst) as Hrun. cbn in Hrun. rewrite <-Hrun. cbn [fst snd].
        split; [done|]. split; [right; by rewrite lookup_app_r, Nat.sub_diag by lia|].
        intros n a b Hn Ha Hb. destruct (decide (n < length sch)) as [Hlt|Hge].
        { rewrite lookup_app_l in Hn by done. destruct Hni. by eapply elem_of_list_lookup_2. }
        assert (n = length sch) as ->.
        { apply lookup_lt_Some in Hn. rewrite app_length in Hn. cbn in Hn. lia. }
        rewrite decide_True by done. rewrite firstn_all2 in Hb by (rewrite app_length; cbn; lia).
        assert (b = y) as -> by congruence. by rewrite Hys.
      * right. destruct Hstep as (? & ? & ? & r' & [[= ->]|?] & _); done.
    + rewrite list_lookup_insert_ne in Hx' by done.
      destruct (HP _ Hx') as [[-> Hni]|Hstep].
      * left. split; [done|]. rewrite elem_of_app, elem_of_list_singleton. naive_solver.
      * right. eapply stepped_more; [done|exact Hre|done|done|done].
  - intros sch xs s1 j c' r' s' Hl1 Hre Hcn HP Hc' Hx Hnp Hk Hth x Hx'.
    assert (Hth' : forall k, need k -> always_there sch (start cs s0) k).
    { intros k Hk' n z Hz. apply (Hth k Hk' (Nat.min n (length sch)) z).
      rewrite take_snoc_le by lia. destruct (decide (n <= length sch)).
      - by rewrite Nat.min_l.
      - rewrite Nat.min_r, firstn_all by lia. by rewrite firstn_all2 in Hz by lia. }
    specialize (HP Hth').
    assert (Hy : exists y, pool_run (sch ++ [j]) (start cs s0) = Some y /\ st_keys y.2 = st_keys s1).
    { rewrite pool_run_app, Hre. cbn. unfold pool_step. cbn [fst snd].
      rewrite lookup_zip_with, Hc', Hx. cbn [tprog mbind option_bind pbind].
      destruct r'; cbn; try done; destruct (counters_increment _ _ _); by eexists. }
    destruct Hy as (y & Hy & Hys).
    destruct (decide (j = i)) as [->|Hne].
    + rewrite list_lookup_insert in Hx' by (by eapply lookup_lt_Some). injection Hx' as <-.
      assert (c' = c) as -> by congruence. right.
      assert (Hstep : stepped c i sch (start cs s0) (TRun (PRet r'))).
      { destruct (HP _ Hx) as [[[= E] Hni]|Hstep]; [|done].
        exists 0, (start cs s0).1, s0, r'. split; [by left|]. split; [lia|]. split; [done|].
        split; [by eapply room_for_room|]. rewrite <-E. cbn. split; [by left|]. split; [done|]. split; [by left|].
        intros n a b Hn. destruct Hni. by eapply elem_of_list_lookup_2. }
      eapply stepped_more; [exact Hstep|exact Hre|done|by intros _|].
      intros r0 [[= ->]|?]; [by right|done].
    + rewrite list_lookup_insert_ne in Hx' by done.
      destruct (HP _ Hx') as [[-> Hni]|Hstep].
      * left. split; [done|]. rewrite elem_of_app, elem_of_list_singleton. naive_solver.
      * right. eapply stepped_more; [done|exact Hre|done|done|done].
  - specialize (HP Hneed). rewrite lookup_zip_with, Hc in Hi. cbn in Hi.
    destruct (xs !! i) as [x|] eqn:Hx; [|done]. cbn in Hi. injection Hi as Hi.
    pose proof (Forall_lookup_1 _ _ _ _ Hq Hx) as Hqx.
    assert (Hstep : stepped c i sched (start cs s0) x).
    { destruct (HP _ eq_refl) as [[-> Hni]|Hstep]; [|done].
      destruct (tprog_ret _ _ _ Hi Hqx) as [?|[-> [= E]]]; [done|].
      exists 0, (start cs s0).1, s0, CPanic. rewrite E. cbn.
      split; [left; by rewrite <-E|]. split; [lia|]. split; [done|].
      split; [by eapply room_for_room|]. split; [by left|]. split; [done|]. split; [by left|].
      intros n a b Hn. destruct Hni. by eapply elem_of_list_lookup_2. }
    destruct Hstep as (at_ & ts1 & s1 & r' & Hx1 & Hrest).
    exists at_, ts1, s1, r'. split; [|exact Hrest]. right.
    destruct (tprog_ret _ _ _ Hi Hqx) as [->|[-> ->]].
    + by destruct Hx1 as [?|[= <-]].
    + by destruct Hx1 as [[= <-]|?].
Qed.

Lemma c56 cs s0 i c sched ts s r :
  room_for cs s0 -> cs !! i = Some c ->
  (one_access (c_req c) \/
   (one_update (c_req c) /\
    forall k, arg (c_req c) 0 = Some k -> always_there sched (start cs s0) k)) ->
  reaches cs s0 sched ts s -> ts !! i = Some (PRet r) ->
  linearized i c sched (start cs s0) r.
Proof.
  intros Hroom Hc Hone Hr Hi.
  destruct (c56_stepped _ _ _ _ _ _ _ _ Hroom Hc Hone Hr Hi)
    as (at_ & ts1 & s1 & r' & Hx1 & Hle & Hrun & Hrm & Hin & Hr' & Heff & Hok).
  destruct Hx1 as [?|[= <-]]; [done|].
  exists at_, ts1, s1. split; [done|]. split; [done|]. split; [done|].
  destruct (dispatch_cmd (c_env c) s1 (c_req c) (c_res c) Hrm) as [H1 H2]. cbn zeta.
  rewrite H1, H2. split; [done|].
  split; [|exact Hok]. intros Hn. destruct Heff; [done|]. done.
Qed.

(** ** Integer increments (C51, C52) *)

Lemma i64_wrap_add a b : i64_wrap (i64_wrap a + b) = i64_wrap (a + b).
Proof.
  unfold i64_wrap. f_equal.
  replace ((a + i64_half) mod i64_mod - i64_half + b + i64_half)%Z
    with ((a + i64_half) mod i64_mod + b)%Z by lia.
  rewrite Zplus_mod_idemp_l. f_equal. lia.
Qed.

Lemma i64_wrap_add_r a b : i64_wrap (a + i64_wrap b) = i64_wrap (a + b).
Proof. rewrite Z.add_comm, i64_wrap_add. f_equal. lia. Qed.

(** What adding [d] does to an integer. *)
Definition adder_upd (e : env) (d : Z) (upd : value -> value * cres) : Prop :=
  forall z, i64_range z ->
  (debug e = true /\ z <> 0%Z /\ upd (VInteger z) = (VInteger z, CPanic)) \/
  (exists b, upd (VInteger z) = (VInteger (i64_wrap (z + d)), COk b)).

(** A client that adds [d] at [k]; [ins] when it may be about to insert a zero. *)
Definition adder_state (ins : Prop) (e : env) (k : bytes) (d : Z) (x : tstate) : Prop :=
  match x with
  | TRun (PRet r) | TDone r =>
    (exists b, r = COk b) \/ (r = CPanic /\ (debug e = true \/ reserved k))
  | TRun (PKoi k' v upd cont) =>
    k' = k /\ v = VInteger 0 /\ (forall r, cont r = PRet r) /\ adder_upd e d upd
  | TRun (PKoiIns k' v upd cont) =>
    ins /\ k' = k /\ v = VInteger 0 /\ (forall r, cont r = PRet r) /\ adder_upd e d upd
  | _ => False
  end.

(** The program of an adder. *)
Definition adder_prog (e : env) (k : bytes) (d : Z) (p : prog) : Prop :=
  (p = PRet CPanic /\ (debug e = true \/ reserved k)) \/
  exists upd, p = PKoi k (VInteger 0) upd PRet /\ adder_upd e d upd.

Lemma increment_int_adder e k d d' res :
  i64_range d' -> (forall z, i64_wrap (z + d') = i64_wrap (z + d)) ->
  adder_prog e k d (increment_int_by e k d' res).
Proof.
  intros Hd' Hd. unfold increment_int_by, key_or_insert_with, guarded.
  destruct (starts_with k reserved_prefix) eqn:Hs.
  { left. split; [done|]. right. by apply reserved_starts. }
  destruct (debug e && _) eqn:Hb.
  { left. split; [done|]. left. by destruct (debug e). }
  right. eexists. split; [done|]. intros z Hz. unfold with_variant. cbn [as_integer].
  destruct (decide (i64_range (z + d'))) as [Hr|Hr].
  - right. rewrite i64_checked_ok by done. eexists. f_equal. f_equal.
    rewrite <-Hd. symmetry. by apply i64_wrap_id.
  - rewrite i64_checked_out by done. destruct (debug e) eqn:Hdb.
    + left. split; [done|]. split; [|done]. by intros ->.
    + right. eexists. by rewrite Hd.
Qed.

Lemma adds_int_prog c k d : adds_int c k d ->
  adder_prog (c_env c) k d (command_prog (c_env c) (c_req c) (c_res c)).
Proof.
  intros (cmd & kt & l & (Hcmd & Hkt & Hl) & H). unfold command_prog. rewrite Hcmd.
  destruct H as [(-> & Hf & (r & ->) & ->)|[(-> & Hf & (r & ->) & ->)|(z & x & r & -> & Hz & H)]].
  - destruct (spec_key_some _ _ k r Hcmd) as (Hk & _); [done..|].
    unfold cmd_increment, wants_float. rewrite Hk, Hkt.
    destruct kt as [[]|]; try done; by apply increment_int_adder.
  - destruct (spec_key_some _ _ k r Hcmd) as (Hk & _); [done..|].
    unfold cmd_decrement, wants_float. rewrite Hk, Hkt.
    destruct kt as [[]|]; try done; by apply increment_int_adder.
  - destruct H as [[-> ->]|[-> ->]].
    + destruct (spec_key_some _ _ k _ Hcmd ltac:(done) Hl) as (Hk & _ & Ha & _).
      unfold cmd_increment_by, typed_arg. rewrite Hk, Ha. cbn [head].
      rewrite convert_i64_spec, arg_int_enc by done. by apply increment_int_adder.
    + destruct (spec_key_some _ _ k _ Hcmd ltac:(done) Hl) as (Hk & _ & Ha & _).
      unfold cmd_decrement_by, typed_arg. rewrite Hk, Ha. cbn [head].
      rewrite convert_i64_spec, arg_int_enc by done. change (0 - z)%Z with (- z)%Z.
      destruct (decide (i64_range (- z))) as [R|R].
      * rewrite i64_checked_ok by done. by apply increment_int_adder.
      * rewrite i64_checked_out by done. destruct (debug (c_env c)) eqn:Hd.
        { left. split; [done|]. by left. }
        apply increment_int_adder; [apply i64_wrap_range|]. intros y. apply i64_wrap_add_r.
Qed.

Lemma adds_int_adder ins c k d : adds_int c k d -> adder_state ins (c_env c) k d (tstart c).
Proof.
  intros H. unfold tstart. destruct (adds_int_prog _ _ _ H) as [[-> ?]|(upd & -> & ?)]; cbn; auto.
Qed.

Lemma adds_int_writes c k d : adds_int c k d -> may_write (c_req c) k.
Proof.
  intros (cmd & kt & l & (Hcmd & Hkt & [_ Hl]) & H).
  assert (Hk : (exists r, l = k :: r) /\ read_only cmd = false).
  { destruct H as [(-> & _ & H & _)|[(-> & _ & H & _)|(z & x & r & -> & _ & [[-> _]|[-> _]])]]; eauto. }
  destruct Hk as [[r ->] Hro]. split; [by rewrite Hcmd|]. left. apply (Hl 0%N).
Qed.

(** Steps of an adder. *)
Lemma adder_pstep ins e k d q s q' s' z :
  adder_state ins e k d (TRun q) -> pstep q s = Some (q', s') -> (~ ins) ->
  st_keys s !! k = Some (VInteger z) -> i64_range z ->
  adder_state ins e k d (TRun q') /\
  ((q' = PRet CPanic /\ st_keys s' = st_keys s) \/
   (exists b, q' = PRet (COk b) /\
      st_keys s' = <[k := VInteger (i64_wrap (z + d))]> (st_keys s))).
Proof.
  intros Ha Hs Hni Hk Hz.
  destruct q as [r| | | | |k' v upd cont|k' v upd cont| |]; cbn in Ha, Hs; try done.
  - destruct Ha as (-> & -> & Hc & Hu). rewrite Hk in Hs.
    destruct (Hu z Hz) as [(Hd & Hnz & E)|(b & E)]; rewrite E in Hs; injection Hs as <- <-.
    + rewrite Hc. split; [cbn; auto|]. left. split; [done|]. rewrite st_keys_with. by apply insert_id.
    + rewrite Hc. split; [cbn; eauto|]. right. exists b. split; [done|]. by rewrite st_keys_with.
  - by destruct Ha.
Qed.

Definition gain (d : Z) (x : tstate) : Z :=
  match x with
  | TRun (PRet (COk _)) | TDone (COk _) => d
  | _ => 0
  end.

Fixpoint gsum (ds : list Z) (xs : list tstate) : Z :=
  match ds, xs with
  | d :: ds, x :: xs => (gain d x + gsum ds xs)%Z
  | _, _ => 0%Z
  end.

Lemma gsum_insert ds xs i d x x' : ds !! i = Some d -> xs !! i = Some x ->
  (gsum ds (<[i := x']> xs) = gsum ds xs - gain d x + gain d x')%Z.
Proof.
  revert xs i. induction ds as [|d0 ds IH]; intros [|x0 xs] [|i]; try done.
  - intros [= ->] [= ->]. cbn. lia.
  - intros Hd Hx. specialize (IH _ _ Hd Hx).
    change (gain d0 x0 + gsum ds (<[i := x']> xs) = gain d0 x0 + gsum ds xs - gain d x + gain d x')%Z.
    lia.
Qed.

Lemma gsum_final cs ds xs rs : length xs = length cs -> length ds = length cs -> Forall tquiet xs ->
  zip_with tprog cs xs = map PRet rs -> gsum ds xs = gained ds rs.
Proof.
  revert ds xs rs. induction cs as [|c cs IH]; intros [|d ds] [|x xs] [|r rs]; try done.
  cbn [length]. intros Hl1 Hl2 Hq [= Hx Hxs]. apply Forall_cons in Hq as [Hqx Hq].
  cbn. rewrite (IH ds xs rs) by (done || lia). f_equal.
  destruct (tprog_ret _ _ _ Hx Hqx) as [->|[-> ->]]; [|done]. by destruct r.
Qed.

(** A client that leaves [k] alone, or adds to it. *)
Definition at_k (ins : Prop) (k : bytes) (c : call) (d : Z) (x : tstate) : Prop :=
  (~ may_write (c_req c) k /\ d = 0%Z /\
   forall q, x = TRun q -> within (uses (c_req c)) (may_write (c_req c)) True q) \/
  (adds_int c k d /\ adder_state ins (c_env c) k d x).

Definition all_at_k (ins : Prop) (k : bytes) (cs : list call) (ds : list Z) (xs : list tstate) : Prop :=
  forall i c d x, cs !! i = Some c -> ds !! i = Some d -> xs !! i = Some x -> at_k ins k c d x.

Lemma all_at_k_start ins k cs ds :
  Forall2 (fun c d => adds_int c k d \/ (~ may_write (c_req c) k /\ d = 0%Z)) cs ds ->
  all_at_k ins k cs ds (map tstart cs).
Proof.
  intros H i c d x Hc Hd Hx. rewrite (start_lookup _ _ _ Hc) in Hx. injection Hx as <-.
  destruct (Forall2_lookup_lr _ _ _ _ _ _ H Hc Hd) as [Ha|[Hn ->]].
  - right. split; [done|]. by apply adds_int_adder.
  - left. split; [done|]. split; [done|]. intros q [= <-].
    eapply within_weaken; [|apply command_within]. done.
Qed.

Lemma all_at_k_insert ins k cs ds xs i c d x :
  all_at_k ins k cs ds xs -> cs !! i = Some c -> ds !! i = Some d -> at_k ins k c d x ->
  all_at_k ins k cs ds (<[i := x]> xs).
Proof.
  intros H Hc Hd Hx j c' d' x' Hc' Hd' Hx'. destruct (decide (i = j)) as [<-|Hne].
  - destruct (decide (i < length xs)).
    + rewrite list_lookup_insert in Hx' by done. injection Hx' as <-.
      assert (c' = c) as -> by congruence. by assert (d' = d) as -> by congruence.
    + rewrite list_insert_ge in Hx' by lia. by eapply H.
  - rewrite list_lookup_insert_ne in Hx' by done. by eapply H.
Qed.

Lemma at_k_done ins k c d r : at_k ins k c d (TRun (PRet r)) -> at_k ins k c d (TDone r).
Proof. intros [(? & ? & ?)|[? ?]]; [by left|by right]. Qed.

Lemma c51_inv cs s0 k z0 ds sched ts s :
  room_for cs s0 -> st_keys s0 !! k = Some (VInteger z0) -> i64_range z0 ->
  Forall2 (fun c d => adds_int c k d \/ (~ may_write (c_req c) k /\ d = 0%Z)) cs ds ->
  reaches cs s0 sched ts s ->
  exists xs, length xs = length cs /\ ts = zip_with tprog cs xs /\ Forall tquiet xs /\
    st_keys s !! k = Some (VInteger (i64_wrap (z0 + gsum ds xs))) /\ all_at_k False k cs ds xs.
Proof.
  intros Hroom Hk Hz Hds Hr.
  destruct (conc_inv_counted cs s0 (fun xs s =>
    st_keys s !! k = Some (VInteger (i64_wrap (z0 + gsum ds xs))) /\ all_at_k False k cs ds xs) Hroom)
    with (sched := sched) (ts := ts) (s := s) as (xs & H1 & H2 & H3 & _ & H5 & H6); [| | |done|eauto 10].
  - split; [|by apply all_at_k_start].
    assert (Hg : gsum ds (map tstart cs) = 0%Z \/ exists i c d, cs !! i = Some c /\ ds !! i = Some d /\
      gain d (tstart c) <> 0%Z).
    { clear. revert ds. induction cs as [|c cs IH]; intros [|d ds]; cbn; auto.
      destruct (decide (gain d (tstart c) = 0%Z)) as [E|E].
      - cbn in E. rewrite E. destruct (IH ds) as [->|(i & c' & d' & ?)]; [by left|].
        right. by exists (S i), c', d'.
      - right. by exists 0, c, d. }
    destruct Hg as [->|(i & c & d & Hc & Hd & Hg)].
    + rewrite Z.add_0_r, i64_wrap_id by done. done.
    + destruct Hg. destruct (Forall2_lookup_lr _ _ _ _ _ _ Hds Hc Hd) as [Ha|[_ ->]].
      * unfold tstart. destruct (adds_int_prog _ _ _ Ha) as [[-> _]|(upd & -> & _)]; done.
      * unfold gain. destruct (tstart c) as [[[]| | | | | | | |]|[]]; done.
  - intros xs s1 i c q q' s' [Hv Hat] Hc Hx Hq Hs.
    assert (Hd : exists d, ds !! i = Some d).
    { apply lookup_lt_is_Some_2. rewrite <-(Forall2_length _ _ _ Hds). by eapply lookup_lt_Some. }
    destruct Hd as [d Hd].
    rewrite (gsum_insert _ _ _ _ _ _ Hd Hx).
    destruct (Hat _ _ _ _ Hc Hd Hx) as [(Hnw & -> & Hw)|[Ha Hst]].
    + destruct (within_pstep _ _ _ _ _ _ _ (Hw q eq_refl) Hs) as [Hw' Hf]. split.
      * rewrite Hf by done. rewrite Hv. do 3 f_equal.
        assert (Hg : forall x, gain 0 x = 0%Z) by (by intros [[[]| | | | | | | |]|[]]).
        rewrite !Hg. lia.
      * eapply all_at_k_insert; [done..|]. left. split; [done|]. split; [done|]. by intros ? [= <-].
    + destruct (adder_pstep False _ _ _ _ _ _ _ _ Hst Hs (fun f => f) Hv (i64_wrap_range _))
        as [Hst' Hcase].
      assert (Hg : gain d (TRun q) = 0%Z).
      { destruct q; try done. }
      split; [|eapply all_at_k_insert; [done..|]; by right].
      rewrite Hg. destruct Hcase as [[-> Hks]|(b & -> & Hks)].
      * rewrite Hks, Hv. cbn [gain]. do 3 f_equal. lia.
      * rewrite Hks, lookup_insert. cbn [gain]. rewrite i64_wrap_add. do 3 f_equal. lia.
  - intros xs s1 i c r s' [Hv Hat] Hc Hx Hnp Hks.
    assert (Hd : exists d, ds !! i = Some d).
    { apply lookup_lt_is_Some_2. rewrite <-(Forall2_length _ _ _ Hds). by eapply lookup_lt_Some. }
    destruct Hd as [d Hd]. rewrite Hks, (gsum_insert _ _ _ _ _ _ Hd Hx). split.
    + rewrite Hv. do 3 f_equal. assert (Hg : gain d (TRun (PRet r)) = gain d (TDone r)) by (by destruct r).
      rewrite Hg. lia.
    + eapply all_at_k_insert; [done..|]. eapply at_k_done. by eapply Hat.
Qed.

Lemma c51 cs s0 k z0 ds sched ts s rs :
  room_for cs s0 -> st_keys s0 !! k = Some (VInteger z0) -> i64_range z0 ->
  Forall2 (fun c d => adds_int c k d \/ (~ may_write (c_req c) k /\ d = 0%Z)) cs ds ->
  reaches cs s0 sched ts s -> all_returned ts rs ->
  st_keys s !! k = Some (VInteger (i64_wrap (z0 + gained ds rs))).
Proof.
  intros Hroom Hk Hz Hds Hr ->.
  destruct (c51_inv _ _ _ _ _ _ _ _ Hroom Hk Hz Hds Hr) as (xs & Hl & E & Hq & Hv & _).
  rewrite Hv. do 4 f_equal. eapply gsum_final; [done| |done|done].
  symmetry. by eapply Forall2_length.
Qed.

(** In a release build every increment of an ordinary key succeeds, so nothing is lost. *)
Lemma c51_release cs s0 k z0 ds sched ts s rs :
  room_for cs s0 -> st_keys s0 !! k = Some (VInteger z0) -> i64_range z0 -> ~ reserved k ->
  Forall (fun c => debug (c_env c) = false) cs ->
  Forall2 (fun c d => adds_int c k d \/ (~ may_write (c_req c) k /\ d = 0%Z)) cs ds ->
  reaches cs s0 sched ts s -> all_returned ts rs ->
  st_keys s !! k = Some (VInteger (i64_wrap (z0 + foldr Z.add 0%Z ds))).
Proof.
  intros Hroom Hk Hz Hres Hdbg Hds Hr ->.
  destruct (c51_inv _ _ _ _ _ _ _ _ Hroom Hk Hz Hds Hr) as (xs & Hl & E & Hq & Hv & Hat).
  rewrite Hv. do 4 f_equal.
  pose proof (Forall2_length _ _ _ Hds) as Hl2. clear -E Hl Hl2 Hq Hat Hres Hdbg.
  revert ds xs rs Hl Hl2 E Hq Hat. induction cs as [|c cs IH]; intros [|d ds] [|x xs] [|r rs]; try done.
  cbn [length]. intros Hl1 Hl2 [= Hx Hxs] Hq Hat. apply Forall_cons in Hq as [Hqx Hq].
  apply Forall_cons in Hdbg as [Hd Hdbg].
  cbn. rewrite (IH Hdbg ds xs rs); [|lia|lia|done|done|].
  2: { intros i c' d' x' Hc' Hd' Hx'. by apply (Hat (S i)). }
  f_equal. destruct (Hat 0 c d x) as [(_ & -> & _)|[_ Hst]]; try done.
  - by destruct x as [[[]| | | | | | | |]|[]].
  - destruct (tprog_ret c x r) as [->|[-> ->]]; try done.
    + destruct Hst as [[b ->]|[_ [?|?]]]; [done|congruence|done].
    + destruct Hst as [[b ?]|[_ [?|?]]]; [done|congruence|done].
Qed.

(** At every moment the key holds an integer. *)
Lemma c51_always cs s0 k z0 ds sched ts s :
  room_for cs s0 -> st_keys s0 !! k = Some (VInteger z0) -> i64_range z0 ->
  Forall2 (fun c d => adds_int c k d \/ (~ may_write (c_req c) k /\ d = 0%Z)) cs ds ->
  reaches cs s0 sched ts s ->
  exists z, st_keys s !! k = Some (VInteger z).
Proof.
  intros Hroom Hk Hz Hds Hr.
  destruct (c51_inv _ _ _ _ _ _ _ _ Hroom Hk Hz Hds Hr) as (xs & Hl & E & Hq & Hv & _). eauto.
Qed.

(** *** A missing key *)

Definition unfinished (x : tstate) : Prop :=
  match x with TRun (PKoi _ _ _ _) | TRun (PKoiIns _ _ _ _) => True | _ => False end.

Definition succeeded (x : tstate) : Prop :=
  match x with TRun (PRet (COk _)) | TDone (COk _) => True | _ => False end.

(** The key was never written, or it holds the sum of some of the amounts added. *)
Definition some_of (k : bytes) (cs : list call) (ds : list Z) (xs : list tstate) (s : store) : Prop :=
  (st_keys s !! k = None /\
   forall i c d x, cs !! i = Some c -> ds !! i = Some d -> adds_int c k d -> xs !! i = Some x ->
     ~ succeeded x) \/
  exists bs, length bs = length ds /\
    st_keys s !! k = Some (VInteger (i64_wrap (picked ds bs))) /\
    (forall i, bs !! i = Some true -> exists c d x,
       cs !! i = Some c /\ ds !! i = Some d /\ adds_int c k d /\ xs !! i = Some x /\ succeeded x) /\
    ((exists i, bs !! i = Some true) \/
     (exists i c d x, cs !! i = Some c /\ ds !! i = Some d /\ adds_int c k d /\
        xs !! i = Some x /\ unfinished x)).

Lemma picked_insert ds bs i d b : ds !! i = Some d -> bs !! i = Some b ->
  (picked ds (<[i := true]> bs) = picked ds bs + (if b : bool then 0 else d))%Z.
Proof.
  revert bs i. induction ds as [|d0 ds IH]; intros [|b0 bs] [|i]; try done.
  - intros [= ->] [= ->]. cbn. destruct b; lia.
  - intros Hd Hb. specialize (IH _ _ Hd Hb).
    change ((if b0 then d0 else 0) + picked ds (<[i := true]> bs) =
      (if b0 then d0 else 0) + picked ds bs + (if b then 0 else d))%Z. lia.
Qed.

Lemma picked_none ds n : picked ds (replicate n false) = 0%Z.
Proof. revert n. induction ds as [|d ds IH]; intros [|n]; cbn; try done. by rewrite IH. Qed.

Lemma not_true_none (bs : list bool) ds : (~ exists i, bs !! i = Some true) -> picked ds bs = 0%Z.
Proof.
  revert ds. induction bs as [|b bs IH]; intros [|d ds] H; cbn; try done.
  rewrite IH.
  - destruct b; [|done]. destruct H. by exists 0.
  - intros [i Hi]. destruct H. by exists (S i).
Qed.

Lemma c52_inv cs s0 k ds sched ts s :
  room_for cs s0 -> st_keys s0 !! k = None ->
  Forall2 (fun c d => adds_int c k d \/ (~ may_write (c_req c) k /\ d = 0%Z)) cs ds ->
  reaches cs s0 sched ts s ->
  exists xs, length xs = length cs /\ ts = zip_with tprog cs xs /\ Forall tquiet xs /\
    some_of k cs ds xs s /\ all_at_k True k cs ds xs.
Proof.
  intros Hroom Hk Hds Hr.
  assert (Hdi : forall i (c : call), cs !! i = Some c -> exists d, ds !! i = Some d).
  { intros i c Hc. apply lookup_lt_is_Some_2. rewrite <-(Forall2_length _ _ _ Hds).
    by eapply lookup_lt_Some. }
  destruct (conc_inv_counted cs s0 (fun xs s =>
    some_of k cs ds xs s /\ all_at_k True k cs ds xs) Hroom)
    with (sched := sched) (ts := ts) (s := s) as (xs & H1 & H2 & H3 & _ & H5 & H6); [| | |done|eauto 10].
  - split; [|by apply all_at_k_start]. left. split; [done|]. intros i c d x Hc Hd Ha Hx.
    rewrite (start_lookup _ _ _ Hc) in Hx. injection Hx as <-. unfold tstart.
    destruct (adds_int_prog _ _ _ Ha) as [[-> _]|(upd & -> & _)]; by intros [].
  - intros xs s1 i c q q' s' [Hsome Hat] Hc Hx Hq Hs.
    destruct (Hdi _ _ Hc) as [d Hd].
    assert (Hxi : <[i := TRun q']> xs !! i = Some (TRun q'))
      by (apply list_lookup_insert; by eapply lookup_lt_Some).
    destruct (Hat _ _ _ _ Hc Hd Hx) as [(Hnw & -> & Hw)|[Ha Hst]].
    + (* someone else *)
      destruct (within_pstep _ _ _ _ _ _ _ (Hw q eq_refl) Hs) as [Hw' Hf].
      assert (Hother : forall j c' d' x', cs !! j = Some c' -> adds_int c' k d' ->
        <[i := TRun q']> xs !! j = Some x' <-> xs !! j = Some x').
      { intros j c' d' x' Hc' Ha'. assert (i <> j).
        - intros ->. assert (c' = c) as -> by congruence. by apply adds_int_writes in Ha'.
        - by rewrite list_lookup_insert_ne. }
      split.
      * unfold some_of. rewrite Hf by done.
        destruct Hsome as [[Hn Hns]|(bs & Hbl & Hv & Htrue & Hex)].
        { left. split; [done|]. intros j c' d' x' Hc' Hd' Ha' Hx'.
          rewrite Hother in Hx' by done. by eapply Hns. }
        right. exists bs. split; [done|]. split; [done|]. split.
        { intros j Hj. destruct (Htrue j Hj) as (c' & d' & x' & ? & ? & ? & ? & ?).
          exists c', d', x'. by rewrite Hother. }
        destruct Hex as [?|(j & c' & d' & x' & ? & ? & ? & ? & ?)]; [by left|].
        right. exists j, c', d', x'. by rewrite Hother.
      * eapply all_at_k_insert; [done..|]. left. split; [done|]. split; [done|]. by intros ? [= <-].
    + assert (Hkeep : forall j x', j <> i -> <[i := TRun q']> xs !! j = Some x' <-> xs !! j = Some x').
      { intros j x' Hne. by rewrite list_lookup_insert_ne. }
      destruct q as [r| | | | |k' v upd cont|k' v upd cont| |]; cbn in Hst, Hs; try done.
      * destruct Hst as (-> & -> & Hcont & Hupd).
        destruct Hsome as [[Hn Hns]|(bs & Hbl & Hv & Htrue & Hex)].
        { rewrite Hn in Hs. injection Hs as <- <-. split.
          - left. split; [done|]. intros j c' d' x' Hc' Hd' Ha' Hx'.
            destruct (decide (j = i)) as [->|Hne].
            + rewrite Hxi in Hx'. injection Hx' as <-. by intros [].
            + rewrite Hkeep in Hx' by done. by eapply Hns.
          - eapply all_at_k_insert; [done..|]. right. by split. }
        rewrite Hv in Hs.
        assert (Hbi : exists b, bs !! i = Some b).
        { apply lookup_lt_is_Some_2. rewrite Hbl. by eapply lookup_lt_Some. }
        destruct Hbi as [b Hbi].
        assert (b = false) as ->.
        { destruct b; [|done]. destruct (Htrue i Hbi) as (? & ? & x' & _ & _ & _ & Hx' & Hsx).
          rewrite Hx in Hx'. injection Hx' as <-. done. }
        destruct (Hupd _ (i64_wrap_range (picked ds bs))) as [(Hdb & Hnz & E)|(b & E)];
          rewrite E in Hs; injection Hs as <- <-.
        { (* overflow in a debug build *)
          rewrite Hcont. split.
          - right. exists bs. split; [done|]. split; [by rewrite st_keys_with, lookup_insert|].
            assert (Hsame : forall j, bs !! j = Some true -> j <> i) by (intros j ? ->; congruence).
            split.
            + intros j Hj. destruct (Htrue j Hj) as (c' & d' & x' & ? & ? & ? & ? & ?).
              exists c', d', x'. rewrite list_lookup_insert_ne by (by apply not_eq_sym, Hsame). done.
            + destruct (decide (Exists (fun b => b = true) bs)) as [Hex'|Hnex].
              * left. apply Exists_exists in Hex' as (b & Hb & ->).
                by apply elem_of_list_lookup_1 in Hb.
              * destruct Hnz. rewrite not_true_none; [done|]. intros [j Hj]. destruct Hnex.
                apply Exists_exists. exists true. split; [|done]. by eapply elem_of_list_lookup_2.
          - eapply all_at_k_insert; [done..|]. right. split; [done|]. cbn. auto. }
        rewrite Hcont in *. split.
        { right. exists (<[i := true]> bs). split; [by rewrite insert_length|].
          split.
          - rewrite st_keys_with, lookup_insert. rewrite (picked_insert _ _ _ _ _ Hd Hbi).
            by rewrite i64_wrap_add.
          - assert (Hii : <[i := true]> bs !! i = Some true)
              by (apply list_lookup_insert; by eapply lookup_lt_Some).
            split; [|left; by exists i].
            intros j Hj. destruct (decide (j = i)) as [->|Hne].
            + exists c, d, (TRun (PRet (COk b))). done.
            + rewrite list_lookup_insert_ne in Hj by done.
              destruct (Htrue j Hj) as (c' & d' & x' & ? & ? & ? & ? & ?).
              exists c', d', x'. rewrite list_lookup_insert_ne by done. done. }
        eapply all_at_k_insert; [done..|]. right. split; [done|]. cbn. eauto.
      * destruct Hst as (_ & -> & -> & Hcont & Hupd). injection Hs as <- <-. split.
        { right. exists (replicate (length ds) false). split; [by rewrite replicate_length|].
          split; [by rewrite st_keys_with, lookup_insert, picked_none|]. split.
          - intros j Hj. by apply lookup_replicate in Hj as [? _].
          - right. exists i, c, d, (TRun (PKoi k (VInteger 0) upd cont)). done. }
        eapply all_at_k_insert; [done..|]. right. by split.
  - intros xs s1 i c r s' [Hsome Hat] Hc Hx Hnp Hks.
    destruct (Hdi _ _ Hc) as [d Hd].
    assert (Hxi : <[i := TDone r]> xs !! i = Some (TDone r))
      by (apply list_lookup_insert; by eapply lookup_lt_Some).
    split; [|eapply all_at_k_insert; [done..|]; eapply at_k_done; by eapply Hat].
    unfold some_of. rewrite Hks. destruct Hsome as [[Hn Hns]|(bs & Hbl & Hv & Htrue & Hex)].
    + left. split; [done|]. intros j c' d' x' Hc' Hd' Ha' Hx'.
      destruct (decide (j = i)) as [->|Hne].
      * rewrite Hxi in Hx'. injection Hx' as <-. apply (Hns _ _ _ _ Hc' Hd' Ha' Hx).
      * rewrite list_lookup_insert_ne in Hx' by done. by eapply Hns.
    + right. exists bs. split; [done|]. split; [done|]. split.
      * intros j Hj. destruct (Htrue j Hj) as (c' & d' & x' & ? & ? & ? & Hx' & Hsx).
        destruct (decide (j = i)) as [->|Hne].
        { exists c', d', (TDone r). rewrite Hx in Hx'. injection Hx' as <-. done. }
        exists c', d', x'. rewrite list_lookup_insert_ne by done. done.
      * destruct Hex as [?|(j & c' & d' & x' & ? & ? & ? & Hx' & Hux)]; [by left|].
        right. exists j, c', d', x'. destruct (decide (j = i)) as [->|Hne].
        { rewrite Hx in Hx'. injection Hx' as <-. done. }
        rewrite list_lookup_insert_ne by done. done.
Qed.

Lemma all_returned_lookup cs xs rs i c x :
  zip_with tprog cs xs = map PRet rs -> Forall tquiet xs -> cs !! i = Some c -> xs !! i = Some x ->
  exists r, rs !! i = Some r /\ (x = TDone r \/ (r = CPanic /\ x = TRun (PRet CPanic))).
Proof.
  intros E Hq Hc Hx. pose proof (f_equal (fun l => l !! i) E) as Ei. cbn in Ei.
  rewrite lookup_zip_with, Hc, Hx in Ei. cbn in Ei.
  change (map PRet rs !! i) with ((PRet <$> rs) !! i) in Ei. rewrite list_lookup_fmap in Ei.
  destruct (rs !! i) as [r|] eqn:Hr; [|done]. cbn in Ei. injection Ei as Ei.
  exists r. split; [done|]. eapply tprog_ret; [done|]. by eapply Forall_lookup_1 in Hq.
Qed.

Lemma c52 cs s0 k ds sched ts s rs :
  room_for cs s0 -> st_keys s0 !! k = None ->
  Forall2 (fun c d => adds_int c k d \/ (~ may_write (c_req c) k /\ d = 0%Z)) cs ds ->
  reaches cs s0 sched ts s -> all_returned ts rs ->
  (exists i c d r, cs !! i = Some c /\ ds !! i = Some d /\ adds_int c k d /\
     rs !! i = Some r /\ is_ok r = true) ->
  exists bs, length bs = length ds /\
    st_keys s !! k = Some (VInteger (i64_wrap (picked ds bs))) /\
    (exists i, bs !! i = Some true) /\
    forall i, bs !! i = Some true -> exists c d r,
      cs !! i = Some c /\ ds !! i = Some d /\ adds_int c k d /\ rs !! i = Some r /\ is_ok r = true.
Proof.
  intros Hroom Hk Hds Hr -> (i & c & d & r & Hc & Hd & Ha & Hri & Hok).
  destruct (c52_inv _ _ _ _ _ _ _ Hroom Hk Hds Hr) as (xs & Hl & E & Hq & Hsome & Hat).
  symmetry in E.
  assert (Hx : exists x, xs !! i = Some x).
  { apply lookup_lt_is_Some_2. rewrite Hl. by eapply lookup_lt_Some. }
  destruct Hx as [x Hx].
  destruct Hsome as [[Hn Hns]|(bs & Hbl & Hv & Htrue & Hex)].
  { destruct (all_returned_lookup _ _ _ _ _ _ E Hq Hc Hx) as (r' & Hr' & Hcase).
    assert (r' = r) as -> by congruence. destruct (Hns _ _ _ _ Hc Hd Ha Hx).
    destruct Hcase as [->|[-> _]]; [|done]. by destruct r. }
  exists bs. split; [done|]. split; [done|]. split.
  - destruct Hex as [?|(j & c' & d' & x' & Hc' & _ & _ & Hx' & Hu)]; [done|].
    destruct (all_returned_lookup _ _ _ _ _ _ E Hq Hc' Hx') as (r' & _ & [->|[_ ->]]); done.
  - intros j Hj. destruct (Htrue j Hj) as (c' & d' & x' & Hc' & Hd' & Ha' & Hx' & Hs).
    destruct (all_returned_lookup _ _ _ _ _ _ E Hq Hc' Hx') as (r' & Hr' & Hcase).
    exists c', d', r'. split; [done|]. split; [done|]. split; [done|]. split; [done|].
    destruct Hcase as [->|[-> ->]]; [|done]. by destruct r'.
Qed.

Lemma picked_ones n (bs : list bool) : length bs = n ->
  (0 <= picked (replicate n 1%Z) bs <= Z.of_nat n)%Z /\
  ((exists i, bs !! i = Some true) -> (1 <= picked (replicate n 1%Z) bs)%Z).
Proof.
  revert n. induction bs as [|b bs IH]; intros [|n] Hn; cbn; try done.
  - split; [lia|]. by intros [].
  - cbn in Hn. destruct (IH n) as [H1 H2]; [lia|]. split; [destruct b; lia|].
    intros [[|i] Hi]; cbn in Hi.
    + injection Hi as ->. lia.
    + specialize (H2 (ex_intro _ i Hi)). destruct b; lia.
Qed.

Lemma c52_ones cs s0 k sched ts s rs :
  room_for cs s0 -> st_keys s0 !! k = None -> (lenN cs < 2 ^ 63)%N ->
  Forall (fun c => adds_int c k 1) cs ->
  reaches cs s0 sched ts s -> all_returned ts rs -> Exists (fun r => is_ok r = true) rs ->
  exists z, st_keys s !! k = Some (VInteger z) /\ (1 <= z <= Z.of_N (lenN cs))%Z.
Proof.
  intros Hroom Hk Hlen Ha Hr Hret Hok.
  assert (Hds : Forall2 (fun c d => adds_int c k d \/ (~ may_write (c_req c) k /\ d = 0%Z))
    cs (replicate (length cs) 1%Z)).
  { clear -Ha. induction Ha as [|c cs Hc _ IH]; cbn; constructor; auto. }
  destruct (c52 _ _ _ _ _ _ _ _ Hroom Hk Hds Hr Hret) as (bs & Hbl & Hv & Hex & _).
  { apply Exists_exists in Hok as (r & Hin & Hok). apply elem_of_list_lookup_1 in Hin as [i Hi].
    assert (Hlt : i < length cs).
    { destruct (c52_inv _ _ _ _ _ _ _ Hroom Hk Hds Hr) as (xs & Hl & E & _).
      rewrite Hret in E. pose proof (f_equal length E) as El.
      rewrite map_length, zip_with_length, Hl in El. apply lookup_lt_Some in Hi. lia. }
    destruct (lookup_lt_is_Some_2 _ _ Hlt) as [c Hc].
    exists i, c, 1%Z, r. split; [done|]. split; [by apply lookup_replicate_2|].
    split; [by eapply Forall_lookup_1 in Ha|done]. }
  rewrite replicate_length in Hbl. destruct (picked_ones _ _ Hbl) as [H1 H2]. specialize (H2 Hex).
  exists (picked (replicate (length cs) 1%Z) bs). unfold lenN in *.
  rewrite i64_wrap_id in Hv; [split; [done|lia]|].
  unfold i64_range, i64_half. lia.
Qed.

(** ** Rename (C53) *)

Lemma psteps_cons_inv p s q s' : psteps p s q s' ->
  (q = p /\ s' = s) \/ exists p1 s1, pstep p s = Some (p1, s1) /\ psteps p1 s1 q s'.
Proof. destruct 1; eauto. Qed.

Lemma c53 cs s0 i c a b v r sched ts s :
  room_for cs s0 -> cs !! i = Some c -> asks (c_req c) CRename None (a :: b :: r) ->
  undisturbed cs i c -> st_keys s0 !! a = Some v -> st_keys s0 !! b = None ->
  reaches cs s0 sched ts s ->
  (st_keys s !! a = Some v /\ st_keys s !! b = None) \/
  (st_keys s !! a = None /\ st_keys s !! b = Some v) \/
  (st_keys s !! a = None /\ st_keys s !! b = None /\
   exists x, pool_step i (ts, s) = Some x /\ st_keys x.2 !! a = None /\ st_keys x.2 !! b = Some v).
Proof.
  intros Hroom Hc (Hcmd & Hkt & Hargs) Hu Ha Hb Hr.
  assert (Hab : a <> b) by (intros ->; congruence).
  destruct (solo_reaches cs s0 i c sched ts s) as (x & Hx & Hq & q & t & Hst & Hag & _ & Hqx); try done.
  { by rewrite Hcmd. }
  destruct (spec_key_some (c_req c) CRename a (b :: r)) as (_ & Harg0 & Harg1 & _); try done.
  cbn in Harg1.
  rewrite !Hag by (unfold uses; rewrite Hcmd; auto).
  unfold command_prog in Hst. rewrite Hcmd in Hst. unfold cmd_rename in Hst.
  rewrite Hkt, Harg0, Harg1 in Hst.
  apply psteps_cons_inv in Hst as [[-> ->]|(p1 & s1 & Hs & Hst)]; [by left|].
  cbn in Hs. rewrite Ha in Hs. injection Hs as <- <-.
  apply psteps_cons_inv in Hst as [[-> ->]|(p1 & s1 & Hs & Hst)]; [by left|].
  cbn in Hs. rewrite Hb in Hs. injection Hs as <- <-.
  apply psteps_cons_inv in Hst as [[-> ->]|(p1 & s1 & Hs & Hst)]; [by left|].
  cbn in Hs. rewrite Ha in Hs. injection Hs as <- <-.
  apply psteps_cons_inv in Hst as [[-> ->]|(p1 & s1 & Hs & Hst)].
  { right. right. rewrite st_keys_with. rewrite lookup_delete, lookup_delete_ne by done.
    split; [done|]. split; [done|].
    destruct Hqx as [->|(? & ? & ?)]; [|done].
    unfold pool_step. cbn [fst snd]. rewrite Hx. cbn. eexists. split; [done|]. cbn [snd].
    rewrite !st_keys_with, lookup_insert, lookup_insert_ne by done.
    split; [|done]. rewrite Hag by (unfold uses; rewrite Hcmd; auto).
    by rewrite st_keys_with, lookup_delete. }
  cbn in Hs. injection Hs as <- <-.
  apply psteps_cons_inv in Hst as [[-> ->]|(p1 & s1 & Hs & Hst)]; [|done].
  right. left. rewrite !st_keys_with, lookup_insert, lookup_insert_ne, lookup_delete by done. done.
Qed.

(** ** Set (C54) *)

Lemma set_typed_with e req res k l v : carries req (k :: l) -> r_command req = CSet ->
  value_of (kind v) l = Some v ->
  exists A (as_ : value -> option A) a0 kept,
    set_typed e req res k (kind v) =
      set_with e res k (blank (kind v)) as_ v kept (write_value e res v) /\
    as_ (blank (kind v)) = Some a0.
Proof.
  intros Hl Hc Hv. destruct (spec_key_some req CSet k l) as (_ & _ & Ha & Hargs & Hcol); try done.
  destruct l as [|a l]; [done|]. cbn [head] in Ha.
  unfold set_typed, typed_arg, typed_args. rewrite ?Ha, ?Hargs.
  destruct v as [x|bs|n|z|items|m|st|str]; cbn in Hv |- *.
  - destruct a as [|b0 a]; [done|]. injection Hv as <-. cbn. by eexists _, as_boolean, _, false.
  - injection Hv as <-. by eexists _, as_bytes, _, false.
  - rewrite convert_f64_spec. destruct (arg_float a); [|done]. cbn in *. injection Hv as <-.
    by eexists _, as_float, _, false.
  - rewrite convert_i64_spec. destruct (arg_int a); [|done]. cbn in *. injection Hv as <-.
    by eexists _, as_integer, _, false.
  - injection Hv as <-. rewrite Hcol. by eexists _, as_list, _, false.
  - rewrite (convert_map_spec req (k :: a :: l)) by done. cbn [drop]. rewrite alternate_spec.
    injection Hv as <-. by eexists _, as_map, _, true.
  - rewrite convert_set_spec, Hcol. injection Hv as <-. by eexists _, as_set, _, true.
  - unfold convert_str, from_utf8. destruct (utf8_valid a); [|done]. injection Hv as <-.
    by eexists _, as_string, _, false.
Qed.

Lemma set_with_mid {A} e res k dflt (as_ : value -> option A) a0 v kept out s q s' :
  as_ dflt = Some a0 ->
  psteps (set_with e res k dflt as_ v kept out) s q s' ->
  st_keys s' !! k = st_keys s !! k \/ st_keys s' !! k = None \/ st_keys s' !! k = Some dflt \/
  st_keys s' !! k = Some v.
Proof.
  intros Ha Hst. unfold set_with in Hst.
  apply psteps_cons_inv in Hst as [[-> ->]|(p1 & s1 & Hs & Hst)]; [by left|].
  cbn in Hs. injection Hs as <- <-.
  set (s1 := with_keys s _) in Hst.
  assert (H1 : st_keys s1 !! k = None) by (unfold s1; by rewrite st_keys_with, lookup_delete).
  revert Hst. generalize s1 H1. clear s1 H1. intros s1 H1 Hst.
  unfold key_or_insert_with, guarded in Hst.
  assert (Hret : forall r s s', psteps (PRet r) s q s' -> s' = s).
  { intros r s2 s2' H. by apply psteps_cons_inv in H as [[_ ->]|(? & ? & ? & _)]. }
  destruct (starts_with _ _); [apply Hret in Hst as ->; auto|].
  destruct (debug e && _); [apply Hret in Hst as ->; auto|].
  apply psteps_cons_inv in Hst as [[-> ->]|(p1 & s2 & Hs & Hst)]; [auto|].
  cbn in Hs. rewrite H1 in Hs. injection Hs as <- <-.
  apply psteps_cons_inv in Hst as [[-> ->]|(p1 & s2 & Hs & Hst)]; [auto|].
  cbn in Hs. injection Hs as <- <-.
  set (s2 := with_keys s1 _) in Hst.
  assert (H2 : st_keys s2 !! k = Some dflt) by (unfold s2; by rewrite st_keys_with, lookup_insert).
  revert Hst. generalize s2 H2. clear s2 H2. intros s2 H2 Hst.
  apply psteps_cons_inv in Hst as [[-> ->]|(p1 & s3 & Hs & Hst)]; [auto|].
  cbn in Hs. rewrite H2 in Hs. unfold with_variant in Hs. rewrite Ha in Hs.
  destruct out as [b|]; [|destruct kept]; cbn in Hs; injection Hs as <- <-; apply Hret in Hst as ->;
    rewrite st_keys_with, lookup_insert; auto.
Qed.

Lemma c54 cs s0 i c kt k l v sched ts s :
  room_for cs s0 -> cs !! i = Some c -> asks (c_req c) CSet kt (k :: l) ->
  value_wf v -> spells v l -> l <> [] -> acts_on s0 kt k KTBytes (kind v) ->
  undisturbed cs i c -> reaches cs s0 sched ts s ->
  mid_set (st_keys s0 !! k) (kind v) v (st_keys s !! k).
Proof.
  intros Hroom Hc (Hcmd & Hkt & Hargs) Hwf Hsp Hl Hact Hu Hr.
  destruct (solo_reaches cs s0 i c sched ts s) as (x & Hx & Hq & q & t & Hst & Hag & _ & Hqx); try done.
  { by rewrite Hcmd. }
  destruct (spec_key_some (c_req c) CSet k l) as (Hkey & Harg0 & Harg1 & _); try done.
  unfold mid_set. rewrite Hag by (unfold uses; by rewrite Hcmd).
  pose proof (spells_value_of _ _ Hwf Hsp Hl) as Hv.
  destruct (set_typed_with (c_env c) _ (c_res c) _ _ _ Hargs Hcmd Hv) as (A & as_ & a0 & kept & E & Ha0).
  unfold command_prog in Hst. rewrite Hcmd in Hst. unfold cmd_set, resolve_type in Hst.
  rewrite Hkey, Harg1 in Hst. destruct l as [|a l]; [done|]. cbn [head] in Hst.
  rewrite Hkt in Hst. apply type_or_acts in Hact. unfold type_or in Hact.
  destruct kt as [t'|].
  - rewrite Hact, E in Hst. by eapply set_with_mid.
  - apply psteps_cons_inv in Hst as [[-> ->]|(p1 & s1 & Hs & Hst)]; [by left|].
    cbn in Hs. rewrite Hact, E in Hs. injection Hs as <- <-. by eapply set_with_mid.
Qed.

Lemma c54_get cs s0 i c kt k l v j g sched ts s r :
  room_for cs s0 -> cs !! i = Some c -> asks (c_req c) CSet kt (k :: l) ->
  value_wf v -> spells v l -> l <> [] -> acts_on s0 kt k KTBytes (kind v) ->
  undisturbed cs i c -> ordinary k ->
  cs !! j = Some g -> env_ok (c_env g) -> asks (c_req g) CGet None [k] ->
  reaches cs s0 sched ts s -> ts !! j = Some (PRet r) ->
  exists now, mid_set (st_keys s0 !! k) (kind v) v now /\
    match now with
    | Some w => responds (c_env g) (c_res g) w r
    | None => r = CErr EKeyNonexistent (c_res g)
    end.
Proof.
  intros Hroom Hc Hset Hwf Hsp Hl Hact Hu Hk Hg He Hget Hr Hj.
  destruct (c56_stepped cs s0 j g sched ts s r) as
    (at_ & ts1 & s1 & r' & Hx1 & Hle & Hrun & Hrm & Hin & Hr' & Heff & Hok); try done.
  { left. unfold one_access. destruct Hget as (-> & _ & _). done. }
  destruct Hx1 as [?|[= <-]]; [done|].
  exists (st_keys s1 !! k). split; [exact (c54 cs s0 i c kt k l v _ _ _ Hroom Hc Hset Hwf Hsp Hl Hact Hu Hrun)|].
  destruct (dispatch_cmd (c_env g) s1 (c_req g) (c_res g) Hrm) as [H2 _].
  rewrite Hr', <-H2. destruct (st_keys s1 !! k) as [w|] eqn:Hw.
  - by eapply (c17_get _ _ _ _ k w None); auto.
  - eapply dispatch_err; [done|done|done|]. cbn. unfold spec_get. by rewrite ordinary_ok, Hw by done.
Qed.

(** ** For the examples *)

Lemma reaches_after cs s0 sched :
  match pool_run sched (start cs s0) with Some _ => true | None => false end = true ->
  reaches cs s0 sched (after cs s0 sched).1 (after cs s0 sched).2.
Proof. unfold reaches, after. destruct (pool_run sched (start cs s0)) as [[]|]; done. Qed.

Lemma store_of_room_for cs l : (lenN cs < 2 ^ 64)%N -> room_for cs (store_of l).
Proof. intros H m. unfold count, store_of. cbn [st_counters]. rewrite lookup_empty. cbn. lia. Qed.

Lemma ask_asks c kt l :
  is_simple c = false -> (lenN l <= 255)%N -> forallb (fun a => bool_decide (a <> [])) l = true ->
  asks (c_req (ask c kt l)) c kt l.
Proof. apply a_request_asks. Qed.

(** What a command may write is among its first two arguments. *)
Lemma not_may_write c kt l cl k : asks (c_req cl) c kt l ->
  (read_only c || negb (bool_decide (l !! 0 = Some k) || bool_decide (l !! 1 = Some k))) = true ->
  ~ may_write (c_req cl) k.
Proof.
  intros (Hc & _ & _ & Ha) H [Hr Hn]. rewrite Hc in Hr. rewrite Hr in H. cbn in H.
  unfold names in Hn. rewrite !Ha in Hn.
  change (N.to_nat 0) with 0 in Hn. change (N.to_nat 1) with 1 in Hn.
  destruct Hn as [Hn|[_ Hn]]; rewrite Hn in H.
  - by rewrite bool_decide_true in H by done.
  - rewrite (bool_decide_true (Some k = Some k)), orb_true_r in H by done. done.
Qed.
