(** Integer increments that cannot overflow (C51). *)
From Verif Require Import Bytes BytesFacts Utf8 Float64 Value CommandId Request Response
  Metrics Prog Commands EngineSpec WireSpec RequestSpec RequestFacts HistorySpec ProgFacts
  CommandFacts SafeFacts EngineFacts EngineProps Concurrent ConcSpec ConcFacts ConcProps.
From stdpp Require Import gmap list.
From Coq Require Import NArith ZArith Lia.
From Coq Require Import ZifyBool ZifyNat ZifyN.

Definition sure_upd (d : Z) (upd : value -> value * cres) : Prop :=
  forall z, i64_range z -> i64_range (z + d) ->
  exists b, upd (VInteger z) = (VInteger (z + d), COk b).

(** A client that adds [d] at [k], or has done so. *)
Definition sure_state (k : bytes) (d : Z) (x : tstate) : Prop :=
  match x with
  | TRun (PRet r) | TDone r => exists b, r = COk b
  | TRun (PKoi k' v upd cont) => k' = k /\ (forall r, cont r = PRet r) /\ sure_upd d upd
  | _ => False
  end.

Lemma increment_int_sure e k d res : ordinary k ->
  sure_state k d (TRun (increment_int_by e k d res)).
Proof.
  intros [Hne Hr]. unfold increment_int_by, key_or_insert_with, guarded.
  destruct (starts_with k reserved_prefix) eqn:Hs.
  { by apply reserved_starts in Hs. }
  replace (debug e && _) with false.
  2: { destruct k; [done|]. rewrite lenN_cons. destruct (debug e); cbn; lia. }
  cbn. split; [done|]. split; [done|]. intros z Hz Hzd. unfold with_variant. cbn [as_integer].
  rewrite i64_checked_ok by done. by eexists.
Qed.

Lemma adds_int_sure c k d : adds_int c k d -> ordinary k -> i64_range d ->
  sure_state k d (tstart c).
Proof.
  intros (cmd & kt & l & (Hcmd & Hkt & Hl) & H) Ho Hd. unfold tstart, command_prog. rewrite Hcmd.
  destruct H as [(-> & Hf & (r & ->) & ->)|[(-> & Hf & (r & ->) & ->)|(z & x & r & -> & Hz & H)]].
  - destruct (spec_key_some _ _ k r Hcmd) as (Hk & _); [done..|].
    unfold cmd_increment, wants_float. rewrite Hk, Hkt.
    destruct kt as [[]|]; try done; by apply increment_int_sure.
  - destruct (spec_key_some _ _ k r Hcmd) as (Hk & _); [done..|].
    unfold cmd_decrement, wants_float. rewrite Hk, Hkt.
    destruct kt as [[]|]; try done; by apply increment_int_sure.
  - destruct H as [[-> ->]|[-> ->]].
    + destruct (spec_key_some _ _ k _ Hcmd ltac:(done) Hl) as (Hk & _ & Ha & _).
      unfold cmd_increment_by, typed_arg. rewrite Hk, Ha. cbn [head].
      rewrite convert_i64_spec, arg_int_enc by done. by apply increment_int_sure.
    + destruct (spec_key_some _ _ k _ Hcmd ltac:(done) Hl) as (Hk & _ & Ha & _).
      unfold cmd_decrement_by, typed_arg. rewrite Hk, Ha. cbn [head].
      rewrite convert_i64_spec, arg_int_enc by done. change (0 - z)%Z with (- z)%Z.
      rewrite i64_checked_ok by done. by apply increment_int_sure.
Qed.

Lemma gsum_picked ds xs : exists bs, gsum ds xs = picked ds bs.
Proof.
  revert xs. induction ds as [|d ds IH]; intros [|x xs]; try (by exists []).
  destruct (IH xs) as [bs E]. cbn [gsum].
  destruct (decide (gain d x = d)) as [->|Hn].
  - exists (true :: bs). cbn. by rewrite E.
  - exists (false :: bs). cbn. rewrite E. f_equal. unfold gain in *. by repeat case_match.
Qed.

Definition sure_at (k : bytes) (c : call) (d : Z) (x : tstate) : Prop :=
  (~ may_write (c_req c) k /\ d = 0%Z /\
   forall q, x = TRun q -> within (uses (c_req c)) (may_write (c_req c)) True q) \/
  (adds_int c k d /\ sure_state k d x).

Definition all_sure (k : bytes) (cs : list call) (ds : list Z) (xs : list tstate) : Prop :=
  forall i c d x, cs !! i = Some c -> ds !! i = Some d -> xs !! i = Some x -> sure_at k c d x.

Lemma all_sure_insert k cs ds xs i c d x :
  all_sure k cs ds xs -> cs !! i = Some c -> ds !! i = Some d -> sure_at k c d x ->
  all_sure k cs ds (<[i := x]> xs).
Proof.
  intros H Hc Hd Hx j c' d' x' Hc' Hd' Hx'. destruct (decide (i = j)) as [<-|Hne].
  - destruct (decide (i < length xs)).
    + rewrite list_lookup_insert in Hx' by done. injection Hx' as <-.
      assert (c' = c) as -> by congruence. by assert (d' = d) as -> by congruence.
    + rewrite list_insert_ge in Hx' by lia. by eapply H.
  - rewrite list_lookup_insert_ne in Hx' by done. by eapply H.
Qed.

Lemma gain_zero x : gain 0 x = 0%Z.
Proof. unfold gain. by repeat case_match. Qed.

Lemma c51_exact cs s0 k z0 ds sched ts s rs :
  room_for cs s0 -> st_keys s0 !! k = Some (VInteger z0) -> ordinary k ->
  Forall2 (fun c d => adds_int c k d \/ (~ may_write (c_req c) k /\ d = 0%Z)) cs ds ->
  Forall i64_range ds -> (forall bs, i64_range (z0 + picked ds bs)) ->
  reaches cs s0 sched ts s -> all_returned ts rs ->
  st_keys s !! k = Some (VInteger (z0 + foldr Z.add 0%Z ds)) /\
  forall i c d r, cs !! i = Some c -> ds !! i = Some d -> adds_int c k d -> rs !! i = Some r ->
    is_ok r = true.
Proof.
  intros Hroom Hk Ho Hds Hrg Hsum Hr ->.
  pose proof (Forall2_length _ _ _ Hds) as Hlen.
  assert (Hdi : forall i c, cs !! i = Some c -> exists d, ds !! i = Some d).
  { intros i c Hc. apply lookup_lt_is_Some_2. rewrite <-Hlen. by eapply lookup_lt_Some. }
  destruct (conc_inv_counted cs s0 (fun xs s =>
    st_keys s !! k = Some (VInteger (z0 + gsum ds xs)) /\ all_sure k cs ds xs) Hroom)
    with (sched := sched) (ts := map PRet rs) (s := s) as (xs & Hl & E & Hq & _ & Hv & Hat); [| | |done|].
  - split.
    + rewrite Hk. do 2 f_equal.
      enough (gsum ds (map tstart cs) = 0%Z) by lia.
      clear -Hds Ho Hrg. revert Hrg. induction Hds as [|c d cs ds Hc Hds IH]; intros Hrg; [done|].
      apply Forall_cons in Hrg as [Hd Hrg]. cbn [map gsum]. rewrite IH by done.
      destruct Hc as [Ha|[_ ->]]; [|by rewrite gain_zero].
      assert (gain d (tstart c) = 0%Z) as ->; [|done].
      unfold tstart. destruct (adds_int_prog _ _ _ Ha) as [[-> _]|(upd & -> & _)]; done.
    + intros i c d x Hc Hd Hx. rewrite (start_lookup _ _ _ Hc) in Hx. injection Hx as <-.
      destruct (Forall2_lookup_lr _ _ _ _ _ _ Hds Hc Hd) as [Ha|[Hn ->]].
      * right. split; [done|]. apply adds_int_sure; try done. by eapply Forall_lookup_1.
      * left. split; [done|]. split; [done|]. intros q [= <-].
        eapply within_weaken; [|apply command_within]. done.
  - intros xs s1 i c q q' s' [Hv Hat] Hc Hx Hq Hs. destruct (Hdi _ _ Hc) as [d Hd].
    destruct (Hat _ _ _ _ Hc Hd Hx) as [(Hnw & -> & Hw)|[Ha Hst]].
    + destruct (within_pstep _ _ _ _ _ _ _ (Hw q eq_refl) Hs) as [Hw' Hf]. split.
      * rewrite (gsum_insert _ _ _ _ _ _ Hd Hx), !gain_zero, Hf, Hv by done. do 2 f_equal. lia.
      * eapply all_sure_insert; [done..|]. left. split; [done|]. split; [done|]. by intros ? [= <-].
    + destruct q as [r| | | | |k' v upd cont| | |]; cbn in Hst, Hs; try done.
      destruct Hst as (-> & Hcont & Hu). rewrite Hv in Hs.
      destruct (gsum_picked ds xs) as [bs Ebs].
      assert (Hnew : forall b, (z0 + gsum ds (<[i := TRun (PRet (COk b))]> xs) = z0 + gsum ds xs + d)%Z).
      { intros b. rewrite (gsum_insert _ _ _ _ _ _ Hd Hx). cbn [gain]. lia. }
      destruct (Hu (z0 + gsum ds xs)%Z) as [b Eu].
      * rewrite Ebs. apply Hsum.
      * rewrite <-(Hnew []). destruct (gsum_picked ds (<[i := TRun (PRet (COk []))]> xs)) as [bs' ->].
        apply Hsum.
      * rewrite Eu in Hs. injection Hs as <- <-. rewrite Hcont. split.
        -- rewrite st_keys_with, lookup_insert, Hnew. done.
        -- eapply all_sure_insert; [done..|]. right. split; [done|]. cbn. by eexists.
  - intros xs s1 i c r s' [Hv Hat] Hc Hx Hnp Hks. destruct (Hdi _ _ Hc) as [d Hd]. split.
    + rewrite Hks, (gsum_insert _ _ _ _ _ _ Hd Hx), Hv. do 2 f_equal.
      assert (Hg : gain d (TRun (PRet r)) = gain d (TDone r)) by (by destruct r). rewrite Hg. lia.
    + eapply all_sure_insert; [done..|]. destruct (Hat _ _ _ _ Hc Hd Hx) as [(? & ? & ?)|[? ?]]; [by left|by right].
  - assert (Hok : forall i c d r, cs !! i = Some c -> ds !! i = Some d -> adds_int c k d ->
      rs !! i = Some r -> is_ok r = true).
    { intros i c d r Hc Hd Ha Hri.
      assert (exists x, xs !! i = Some x) as [x Hx].
      { apply lookup_lt_is_Some_2. rewrite Hl. by eapply lookup_lt_Some. }
      assert (tprog c x = PRet r) as Hp.
      { assert (zip_with tprog cs xs !! i = Some (tprog c x)) as Hz by (by rewrite lookup_zip_with, Hc; cbn; rewrite Hx).
        rewrite <-E, list_lookup_fmap, Hri in Hz. by injection Hz. }
      destruct (Hat _ _ _ _ Hc Hd Hx) as [(Hnw & _)|[_ Hst]]; [by apply adds_int_writes in Ha|].
      destruct (tprog_ret c x r Hp) as [->|[-> ->]]; [by eapply Forall_lookup_1| |].
      - by destruct Hst as [b ->].
      - by destruct Hst as [b ?]. }
    split; [|done]. rewrite Hv. do 3 f_equal. symmetry in E.
    rewrite (gsum_final cs ds xs rs) by done.
    assert (length rs = length cs) as Hlr.
    { rewrite <-(map_length PRet rs), <-E, zip_with_length. lia. }
    clear -Hok Hds Hlr. revert rs Hok Hlr. induction Hds as [|c d cs ds Hc Hds IH]; intros [|r rs] Hok Hlr; try done.
    cbn. rewrite (IH rs); [|intros i; apply (Hok (S i))|cbn in Hlr; lia]. f_equal.
    destruct Hc as [Ha|[_ ->]]; [|by destruct (is_ok r)]. by rewrite (Hok 0 c d r).
Qed.
