(** Dispatching and histories refine the specification. *)
From Coq Require Import String.
From Verif Require Import Bytes BytesFacts Utf8 Float64 Value CommandId Request Response
  RespContext Metrics Prog Commands EngineSpec WireSpec RequestSpec HistorySpec
  RequestFacts ResponseFacts RespContextFacts RespProps ProgFacts CommandFacts SafeFacts.
From stdpp Require Import gmap list.
From Coq Require Import NArith ZArith Lia.
From Coq Require Import ZifyBool ZifyNat ZifyN.

Lemma responds_copy e res v :
  env_ok e -> responds e res v (cres_of (copy_to e (RValue v) res)).
Proof.
  intros He. destruct (copy_to e (RValue v) res) as [b|] eqn:Hb.
  - left. destruct (write_value_app e res v b Hb) as [msg ->]. exists msg.
    split; [done|]. intros Hl dbg Hwf Hem. rewrite copy_to_ok in Hb by done.
    injection Hb as Hb. apply app_inv_head in Hb as <-.
    rewrite <-(app_nil_r (resp_frame _ _)). by apply decode_frame.
  - right. split_and!; [| |done].
    + destruct (debug e) eqn:Hd; [done|].
      destruct (copy_to_release e (RValue v) res Hd) as [b ?]. congruence.
    + intros Hl. by rewrite copy_to_ok in Hb.
Qed.

(** ** Dispatch *)

Lemma run_pbind p f s :
  f CPanic = PRet CPanic ->
  run (pbind p f) s = run (f (run p s).2) (run p s).1.
Proof.
  intros Hf. revert s.
  induction p as [r|k c IH|k c IH|k v c IH|k c IH|k d u c IH|k d u c IH|m c IH|dbg m c IH];
    intros s; cbn; auto.
  - destruct (u _) as [v' r]. apply IH.
  - destruct (u _) as [v' r]. apply IH.
  - destruct (counters_increment _ _ _); [apply IH|]. cbn. by rewrite Hf.
Qed.

(** The counter that an outcome increments. *)
Definition tally (e : env) (s : store) (r : cres) : store * cres :=
  let bump m :=
    match counters_increment (debug e) (st_counters s) m with
    | Ok cs => (Store (st_keys s) cs, r)
    | Panic => (s, CPanic)
    end in
  match r with
  | COk _ => bump MCommandsSuccessful
  | CErr _ _ => bump MCommandsErrored
  | CPanic => (s, CPanic)
  end.

Lemma dispatch_run e s req res :
  dispatch e s req res =
  tally e (run (command_prog e req res) s).1 (run (command_prog e req res) s).2.
Proof.
  unfold dispatch, dispatch_prog, tally. rewrite run_pbind by done.
  by destruct (run _ s) as [s1 [b|err b|]]; cbn; [destruct (counters_increment _ _ _)..|].
Qed.

Lemma tally_keys e s r : st_keys (tally e s r).1 = st_keys s.
Proof. destruct r; cbn; try done; by destruct (counters_increment _ _ _). Qed.

Lemma count_inc e s m :
  (count s m < u64_mod - 1)%N ->
  counters_increment (debug e) (st_counters s) m
  = Ok (<[m := (count s m + 1)%N]> (st_counters s)).
Proof.
  intros H. unfold counters_increment, uadd. fold (count s m).
  by rewrite (proj2 (N.ltb_lt _ _)) by lia.
Qed.

(** ** The engine's state and the specification's *)

Definition counter_is (s : store) (m : metric) (n : N) : Prop :=
  st_counters s !! m = if (n =? 0)%N then None else Some n.

Definition tracks (s : store) (sp : sstate) : Prop :=
  counter_is s MCommandsSuccessful (sp_ok sp) /\
  counter_is s MCommandsErrored (sp_err sp) /\
  counter_is s MSessionsStarted (sp_sessions sp).

Definition grand_total (sp : sstate) : N := (sp_ok sp + sp_err sp + sp_sessions sp)%N.

Lemma counter_is_count s m n : counter_is s m n -> count s m = n.
Proof. unfold counter_is, count. intros ->. destruct (N.eqb_spec n 0); cbn; lia. Qed.

Lemma counter_is_inc s ks m m' n :
  counter_is s m n ->
  counter_is (Store ks (<[m' := (count s m' + 1)%N]> (st_counters s))) m
    (if decide (m = m') then n + 1 else n)%N.
Proof.
  intros H. unfold counter_is in *. cbn. destruct (decide (m = m')) as [<-|Hne].
  - rewrite lookup_insert, (counter_is_count _ _ _ H). by destruct (N.eqb_spec (n + 1) 0); [lia|].
  - by rewrite lookup_insert_ne by done.
Qed.

Lemma tracks_stats s sp :
  tracks s sp -> (grand_total sp < 2 ^ 63)%N -> engine_stats s = spec_stats sp.
Proof.
  intros (H1 & H2 & H3) Hb. unfold grand_total in Hb.
  unfold engine_stats, spec_stats, stat_entry, counter_is in *. rewrite H1, H2, H3.
  unfold count_entry.
  destruct (N.eqb_spec (sp_ok sp) 0), (N.eqb_spec (sp_err sp) 0), (N.eqb_spec (sp_sessions sp) 0);
    repeat (match goal with |- context [(?a <? ?b)%Z] =>
      rewrite (proj2 (Z.ltb_lt a b)) by (unfold i64_half; lia) end); done.
Qed.

(** One dispatch, against the specification of the command. *)
Lemma dispatch_says e s req res l :
  env_ok e -> carries req l ->
  exists s1 r1,
    dispatch e s req res = tally e s1 r1 /\
    st_counters s1 = st_counters s /\
    let sp := spec_command (debug e) (engine_stats s) (r_command req) (r_key_type req) l
                (st_keys s) in
    engine_says req e s res sp (s1, r1).
Proof.
  intros He Hc. pose proof (command_ok e s req res l He Hc) as H.
  rewrite dispatch_run. destruct (run _ s) as [s1 r1] eqn:Hr. exists s1, r1.
  split; [done|]. split; [|done]. revert H. unfold engine_says. cbn.
  destruct (spec_command _ _ _ _ _ _) as [ks [v|m|err|]]; cbn.
  - by intros [? _].
  - intros (? & _ & [= -> ->]). done.
  - intros [= -> ->]. done.
  - intros [= -> ->]. done.
Qed.

Lemma answered_says req e s res sp s1 r1 :
  env_ok e -> engine_says req e s res sp (s1, r1) ->
  answered e res sp.2 r1 /\ ((r1 = CPanic -> sp.2 = ACrash) -> st_keys s1 = sp.1) /\
  match sp.2 with
  | AVal _ | AKeys _ => r1 = CPanic \/ exists b, r1 = COk b
  | AErr err => r1 = CErr err res
  | ACrash => r1 = CPanic
  end.
Proof.
  intros He. unfold engine_says. destruct sp as [ks a]. cbn.
  assert (Hco : forall x, cres_of x = CPanic \/ exists b, cres_of x = COk b)
    by (intros [b|]; cbn; eauto).
  destruct a as [v|m|err|]; cbn.
  - intros (_ & -> & Hk). split; [by apply responds_copy|]. split; [|by apply Hco].
    intros H. destruct Hk as [?|(_ & Hp & _)]; [done|]. by specialize (H Hp).
  - intros (l & Hl & [= -> ->]). split; [|split; [done|by apply Hco]].
    exists l. split; [done|]. by apply responds_copy.
  - intros [= -> ->]. done.
  - intros [= -> ->]. done.
Qed.

Lemma tally_snd e s r : room s -> (tally e s r).2 = r.
Proof.
  intros Hr. unfold tally. destruct r; try done; by rewrite count_inc by apply Hr.
Qed.

Lemma count_counters s s' m : st_counters s = st_counters s' -> count s m = count s' m.
Proof. unfold count. by intros ->. Qed.

Lemma room_counters s s' : st_counters s = st_counters s' -> room s -> room s'.
Proof. intros H Hr m. rewrite <-(count_counters _ _ m H). apply Hr. Qed.

(** One dispatch: its answer is the specification's, and unless it crashed for a
    reason the specification does not have, so is the keyspace. *)
Lemma dispatch_answered e s req res l :
  env_ok e -> carries req l -> room s ->
  let sp := spec_command (debug e) (engine_stats s) (r_command req) (r_key_type req) l
              (st_keys s) in
  let out := dispatch e s req res in
  answered e res sp.2 out.2 /\
  ((out.2 = CPanic -> sp.2 = ACrash) -> st_keys out.1 = sp.1).
Proof.
  intros He Hc Hr sp out.
  destruct (dispatch_says e s req res l He Hc) as (s1 & r1 & Hd & Hcs & Hs).
  subst out. rewrite Hd, tally_keys, tally_snd by (by eapply room_counters).
  by destruct (answered_says req e s res _ s1 r1 He Hs) as (? & ? & _).
Qed.

(** ** Histories *)

Definition unexplained (cr : cres) (a : answer) : Prop := cr = CPanic /\ a <> ACrash.

Lemma dispatch_spec e s req res l sp :
  env_ok e -> carries req l -> st_keys s = sp_keys sp -> tracks s sp ->
  (grand_total sp < 2 ^ 63)%N ->
  let sp' := spec_dispatch (debug e) (r_command req) (r_key_type req) l sp in
  let out := dispatch e s req res in
  answered e res sp'.2 out.2 /\
  (grand_total sp'.1 <= grand_total sp + 1)%N /\
  (~ unexplained out.2 sp'.2 -> st_keys out.1 = sp_keys sp'.1 /\ tracks out.1 sp'.1).
Proof.
  intros He Hc Hk Ht Hb.
  destruct (dispatch_says e s req res l He Hc) as (s1 & r1 & Hd & Hcs & Hs).
  cbn in Hs. rewrite (tracks_stats _ _ Ht Hb), Hk in Hs.
  apply (answered_says req e s res) in Hs; [|done]. destruct Hs as (Ha & Hks & Hcls).
  assert (Hct : forall m n, counter_is s m n -> counter_is s1 m n)
    by (unfold counter_is; by rewrite Hcs).
  assert (Ht1 : tracks s1 sp) by (destruct Ht as (?&?&?); split_and!; auto).
  assert (Hcb : forall m n, counter_is s1 m n -> (n < 2 ^ 63)%N -> (count s1 m < u64_mod - 1)%N).
  { intros m n H Hn. rewrite (counter_is_count _ _ _ H). unfold u64_mod. lia. }
  unfold grand_total in Hb.
  destruct Ht1 as (T1 & T2 & T3).
  pose proof (Hcb _ _ T1 ltac:(lia)) as B1. pose proof (Hcb _ _ T2 ltac:(lia)) as B2.
  unfold spec_dispatch. rewrite Hd.
  destruct (spec_command _ _ _ _ _ _) as [ks a] eqn:Hsp. cbn in *.
  assert (Htal : (tally e s1 r1).2 = r1).
  { unfold tally. destruct r1; try done; by rewrite count_inc. }
  rewrite Htal, tally_keys. split; [done|]. split; [unfold grand_total; destruct a; cbn; lia|].
  intros Hun. assert (Hks' : st_keys s1 = ks).
  { apply Hks. intros ->. destruct a; try done; exfalso; apply Hun; done. }
  split; [by destruct a|].
  assert (Hok : forall b, r1 = COk b -> tracks (tally e s1 r1).1
      (SState ks (sp_ok sp + 1) (sp_err sp) (sp_sessions sp))).
  { intros b ->. unfold tally. rewrite count_inc by done. cbn. split_and!; cbn.
    - apply (counter_is_inc s1 (st_keys s1) _ MCommandsSuccessful) in T1. by cbn in T1.
    - apply (counter_is_inc s1 (st_keys s1) _ MCommandsSuccessful) in T2. by cbn in T2.
    - apply (counter_is_inc s1 (st_keys s1) _ MCommandsSuccessful) in T3. by cbn in T3. }
  destruct a as [v|m|err|]; cbn.
  - destruct Hcls as [->|[b Hb']]; [by destruct Hun|by eapply Hok].
  - destruct Hcls as [->|[b Hb']]; [by destruct Hun|by eapply Hok].
  - subst r1. unfold tally. rewrite count_inc by done. cbn. split_and!; cbn.
    + apply (counter_is_inc s1 (st_keys s1) _ MCommandsErrored) in T1. by cbn in T1.
    + apply (counter_is_inc s1 (st_keys s1) _ MCommandsErrored) in T2. by cbn in T2.
    + apply (counter_is_inc s1 (st_keys s1) _ MCommandsErrored) in T3. by cbn in T3.
  - subst r1. cbn. done.
Qed.

(** A call that is a debug build's fails to answer only values the format has no room
    for. *)
Lemma responds_no_panic e res v cr :
  responds e res v cr -> (debug e = true -> within_limits (RValue v)) -> cr <> CPanic.
Proof. intros [(msg & -> & _)|(Hd & Hn & _)] Hl; [done|]. destruct Hn. by apply Hl. Qed.

Lemma responds_not_err e res v err out : ~ responds e res v (CErr err out).
Proof. by intros [(? & ? & _)|(_ & _ & ?)]. Qed.
