(** Calls that have nothing to do with each other (C92 - C94). *)
From Verif Require Import Bytes BytesFacts Utf8 Float64 Value CommandId Request Response
  Metrics Prog Commands EngineSpec WireSpec RequestSpec RequestFacts HistorySpec ProgFacts
  CommandFacts SafeFacts EngineFacts EngineProps HistoryFacts Concurrent ConcSpec ConcFacts ConcProps
  Scripts LinSpec LinFacts KeyLinSpec KeyLin KeyLinFacts IsoSpec.
From stdpp Require Import gmap list.
From Coq Require Import NArith ZArith Lia.
From Coq Require Import ZifyBool ZifyNat ZifyN.

(** ** What a call does depends on the keys it uses *)

Lemma steps_agree (R W : bytes -> Prop) p s q s' : psteps p s q s' -> forall t,
  (forall k, W k -> R k) -> within R W False p -> quiet p ->
  (forall k, R k -> st_keys s !! k = st_keys t !! k) ->
  exists t', psteps p t q t' /\ (forall k, R k -> st_keys s' !! k = st_keys t' !! k) /\
    within R W False q.
Proof.
  induction 1 as [p s|p s p' s' p'' s'' Hs _ IH]; intros t HWR Hw Hq Ha.
  - exists t. split; [apply psteps_refl|done].
  - destruct (within_agree R W p s t p' s' HWR Hw Hq Ha Hs) as (t1 & Ht1 & Ha1).
    destruct (IH t1 HWR) as (t' & H1 & H2 & H3); [by eapply within_pstep|by eapply quiet_pstep|done|].
    exists t'. split; [|done]. eapply psteps_trans; [by apply psteps_one|done].
Qed.

Lemma dispatch_agree c s t : room s -> room t -> r_command (c_req c) <> CStats ->
  (forall k, uses (c_req c) k -> st_keys s !! k = st_keys t !! k) ->
  let a := dispatch (c_env c) s (c_req c) (c_res c) in
  let b := dispatch (c_env c) t (c_req c) (c_res c) in
  a.2 = b.2 /\ forall k, uses (c_req c) k -> st_keys a.1 !! k = st_keys b.1 !! k.
Proof.
  intros Hs Ht Hc Ha. cbn zeta.
  destruct (dispatch_cmd (c_env c) s (c_req c) (c_res c) Hs) as [-> ->].
  destruct (dispatch_cmd (c_env c) t (c_req c) (c_res c) Ht) as [-> ->].
  set (p := command_prog _ _ _).
  destruct (run_psteps p s) as (r & Hp & Er).
  destruct (steps_agree (uses (c_req c)) (may_write (c_req c)) _ _ _ _ Hp t) as (t' & Hp' & Hag & _).
  - apply may_write_uses.
  - eapply within_weaken; [|apply command_within]. done.
  - apply command_quiet.
  - done.
  - apply run_psteps_same in Hp'. rewrite <-Hp'. cbn [run fst snd]. done.
Qed.

(** ** Two calls next to each other (C92) *)

Global Instance may_write_dec req k : Decision (may_write req k).
Proof. unfold may_write, names. apply _. Defined.

Definition cbump (r : cres) (cs : gmap metric N) : gmap metric N :=
  match r with
  | COk _ => <[MCommandsSuccessful := (default 0 (cs !! MCommandsSuccessful) + 1)%N]> cs
  | CErr _ _ => <[MCommandsErrored := (default 0 (cs !! MCommandsErrored) + 1)%N]> cs
  | CPanic => cs
  end.

Lemma dispatch_counters c s : room s ->
  let d := dispatch (c_env c) s (c_req c) (c_res c) in st_counters d.1 = cbump d.2 (st_counters s).
Proof.
  intros Hr d. subst d. rewrite dispatch_run. set (p := command_prog _ _ _).
  assert (E : st_counters (run p s).1 = st_counters s) by apply quiet_run, command_quiet.
  assert (Hr' : room (run p s).1).
  { intros m. rewrite (count_counters _ s m E). apply Hr. }
  rewrite tally_snd by done. unfold tally. destruct (run p s).2; cbn [cbump]; [| |done].
  all: rewrite count_inc by apply Hr'; cbn [fst st_counters]; unfold count; by rewrite E.
Qed.

Lemma cbump_comm a b cs : cbump a (cbump b cs) = cbump b (cbump a cs).
Proof.
  destruct a, b; cbn [cbump]; try done.
  all: rewrite ?lookup_insert, ?lookup_insert_ne by done; try done.
  all: by rewrite insert_commute.
Qed.

Lemma two_apart a b s : apart a b -> (forall m, (count s m + 2 < 2 ^ 64)%N) ->
  exists s' ra rb, run_calls [a; b] s = (s', [ra; rb]) /\ run_calls [b; a] s = (s', [rb; ra]).
Proof.
  intros (Ha & Hb & Hk) Hroom.
  assert (Hr : room s) by (intros m; specialize (Hroom m); lia).
  assert (Hr1 : forall c, room (dispatch (c_env c) s (c_req c) (c_res c)).1).
  { intros c m. specialize (Hroom m). pose proof (dispatch_count (c_env c) s (c_req c) (c_res c) m). lia. }
  pose proof (dispatch_agree b (dispatch (c_env a) s (c_req a) (c_res a)).1 s (Hr1 a) Hr Hb) as [E1 E2].
  { intros k Hu. apply keeps_unwritten; [by apply Hk|done]. }
  pose proof (dispatch_agree a (dispatch (c_env b) s (c_req b) (c_res b)).1 s (Hr1 b) Hr Ha) as [F1 F2].
  { intros k Hu. apply keeps_unwritten; [by apply Hk|done]. }
  pose proof (dispatch_counters b _ (Hr1 a)) as C1. pose proof (dispatch_counters a _ (Hr1 b)) as C2.
  cbn zeta in C1, C2.
  rewrite (dispatch_counters a s Hr) in C1. rewrite (dispatch_counters b s Hr) in C2.
  rewrite E1 in C1. rewrite F1 in C2.
  assert (Hkeys : st_keys (dispatch (c_env b) (dispatch (c_env a) s (c_req a) (c_res a)).1 (c_req b) (c_res b)).1 =
    st_keys (dispatch (c_env a) (dispatch (c_env b) s (c_req b) (c_res b)).1 (c_req a) (c_res a)).1).
  { apply map_eq. intros k. destruct (decide (may_write (c_req a) k)) as [Wa|Wa].
    - pose proof (may_write_uses _ _ Wa) as Ua. rewrite F2 by done.
      apply keeps_unwritten; [by apply Hk|done].
    - rewrite (keeps_unwritten a _ k Wa (Hr1 b)).
      destruct (decide (may_write (c_req b) k)) as [Wb|Wb].
      + apply E2. by apply may_write_uses.
      + rewrite !keeps_unwritten by done. done. }
  cbn [run_calls].
  destruct (dispatch (c_env a) s (c_req a) (c_res a)) as [sa ra] eqn:Da.
  destruct (dispatch (c_env b) s (c_req b) (c_res b)) as [sb rb] eqn:Db.
  cbn [fst snd] in *.
  destruct (dispatch (c_env b) sa (c_req b) (c_res b)) as [sab rb'] eqn:Dab.
  destruct (dispatch (c_env a) sb (c_req a) (c_res a)) as [sba ra'] eqn:Dba.
  cbn [fst snd] in *. subst ra' rb'.
  exists sab, ra, rb. split; [done|]. f_equal. destruct sab as [k1 c1], sba as [k2 c2].
  cbn in Hkeys, C1, C2. subst. by rewrite cbump_comm.
Qed.

Lemma run_calls_app a b s :
  run_calls (a ++ b) s =
  let x := run_calls a s in let y := run_calls b x.1 in (y.1, x.2 ++ y.2).
Proof.
  revert s. induction a as [|c a IH]; intros s; cbn [app run_calls].
  - cbn. by destruct (run_calls b s).
  - destruct (dispatch (c_env c) s (c_req c) (c_res c)) as [s1 r] eqn:Hd. rewrite IH.
    cbn zeta. destruct (run_calls a s1) as [s2 rs]. cbn [fst snd]. by destruct (run_calls b s2).
Qed.

Lemma c92 h1 a b h2 s : room_for (h1 ++ a :: b :: h2) s -> apart a b ->
  exists s' rs1 ra rb rs2, length rs1 = length h1 /\
    run_calls (h1 ++ a :: b :: h2) s = (s', rs1 ++ ra :: rb :: rs2) /\
    run_calls (h1 ++ b :: a :: h2) s = (s', rs1 ++ rb :: ra :: rs2).
Proof.
  intros Hroom Hab. rewrite !run_calls_app. cbn zeta.
  pose proof (run_calls_length h1 s) as Hl. pose proof (run_calls_count h1 s) as Hc.
  destruct (run_calls h1 s) as [s1 rs1]. cbn [fst snd] in *.
  destruct (two_apart a b s1 Hab) as (s2 & ra & rb & E1 & E2).
  { intros m. specialize (Hroom m). specialize (Hc m). unfold lenN in *. rewrite app_length in Hroom.
    cbn [length] in Hroom. lia. }
  change (a :: b :: h2) with ([a; b] ++ h2). change (b :: a :: h2) with ([b; a] ++ h2).
  rewrite !run_calls_app, E1, E2. cbn [fst snd].
  destruct (run_calls h2 s2) as [s3 rs2]. by exists s3, rs1, ra, rb, rs2.
Qed.
