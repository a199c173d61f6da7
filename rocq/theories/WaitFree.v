(** How often one client has to move until its command returns, whatever the others do (C91). *)
From Coq Require Import String.
From Verif Require Import Bytes BytesFacts Utf8 Value CommandId Request Response Metrics Prog Commands
  Concurrent HistorySpec ConcSpec ProgFacts CommandFacts ConcFacts ConcBound Scripts WaitFreeSpec.
From stdpp Require Import gmap list.
From Coq Require Import NArith ZArith Lia.
From Coq Require Import ZifyBool ZifyNat ZifyN.

(** No loop (if [l]); no removal (if [r]). *)
Fixpoint lacks (l r : bool) (p : prog) : Prop :=
  match p with
  | PRet _ => True
  | PContains _ c => forall b, lacks l r (c b)
  | PGet _ c => forall v, lacks l r (c v)
  | PInsert _ _ c => lacks l r c
  | PRemove _ c => r = false /\ forall v, lacks l r (c v)
  | PKoi _ _ _ c => l = false /\ forall x, lacks l r (c x)
  | PKoiIns _ _ _ c => l = false /\ forall x, lacks l r (c x)
  | PCounter _ c => forall v, lacks l r (c v)
  | PIncr _ _ c => lacks l r c
  end.

Lemma lacks_step l r p s p' s' : lacks l r p -> pstep p s = Some (p', s') -> lacks l r p'.
Proof.
  destruct p as [x|k0 c|k0 c|k0 v c|k0 c|k0 d u c|k0 d u c|m c|dbg m c]; cbn; try done; intros H Hs.
  - by injection Hs as <- <-.
  - by injection Hs as <- <-.
  - by injection Hs as <- <-.
  - injection Hs as <- <-. apply H.
  - destruct (st_keys s !! k0) as [v|]; [destruct (u v)|]; injection Hs as <- <-; [apply H|done].
  - by injection Hs as <- <-.
  - by injection Hs as <- <-.
  - by destruct (counters_increment _ _ _); injection Hs as <- <-.
Qed.

Lemma lacks_guarded l r e k p : lacks l r p -> lacks l r (guarded e k p).
Proof. unfold guarded. destruct (starts_with _ _); [done|]. by destruct (debug e && _). Qed.

Lemma lacks_koi r e k d u : lacks false r (key_or_insert_with e k d u).
Proof. apply lacks_guarded. by split. Qed.

Lemma lacks_read {A} l r e res k (f : value -> option A) c : lacks l r (read_variant e res k f c).
Proof. apply lacks_guarded. intros [v|]; [|done]. by destruct (f v). Qed.

Lemma lacks_exist l r ks c : (forall b, lacks l r (c b)) -> lacks l r (all_exist ks c).
Proof. intros H. induction ks as [|k ks IH]; cbn; [apply H|]. by intros []. Qed.

Lemma lacks_are l r t ks c : (forall b, lacks l r (c b)) -> lacks l r (all_are t ks c).
Proof.
  intros H. induction ks as [|k ks IH]; cbn; [apply H|]. intros v.
  by destruct (match v with Some _ => _ | None => _ end).
Qed.

Lemma lacks_stats l r ms m c : (forall m, lacks l r (c m)) -> lacks l r (stats_loop ms m c).
Proof.
  intros H. revert m. induction ms as [|x ms IH]; intros m; cbn; [apply H|].
  intros [n|]; [destruct (_ <? _)%Z|]; apply IH.
Qed.

Lemma lacks_set {A} e res k d (f : value -> option A) new b o :
  lacks false false (set_with e res k d f new b o).
Proof. split; [done|]. intros _. apply lacks_koi. Qed.

Ltac lacks_go :=
  match goal with
  | |- lacks _ _ (key_or_insert_with _ _ _ _) => apply lacks_koi
  | |- lacks _ _ (read_variant _ _ _ _ _) => apply lacks_read
  | |- lacks _ _ (set_with _ _ _ _ _ _ _ _) => apply lacks_set
  | |- lacks _ _ (PRet _) => exact I
  | |- lacks _ _ (fail _ _) => exact I
  | |- lacks _ _ (key_ref _ _ _) => apply lacks_guarded; intros [|]
  | |- lacks _ _ (all_exist _ _) => apply lacks_exist; intros []
  | |- lacks _ _ (all_are _ _ _) => apply lacks_are; intros []
  | |- lacks _ _ (stats_loop _ _ _) => apply lacks_stats; intros ?
  | |- lacks _ _ (PGet _ _) => intros [|]
  | |- lacks _ _ (PContains _ _) => intros [|]
  | |- lacks _ _ (PRemove _ _) => split; [reflexivity|intros [|]]
  | |- lacks _ _ (PInsert _ _ _) => change (lacks ?l ?r (PInsert ?k ?v ?c)) with (lacks l r c)
  | |- lacks _ _ (match ?x with _ => _ end) => destruct x eqn:?
  end.

Lemma command_lacks e req res :
  lacks (negb (looks_again (r_command req))) (negb (takes_away (r_command req))) (command_prog e req res).
Proof.
  unfold command_prog. destruct (r_command req) eqn:Hc; cbn [looks_again takes_away negb];
    unfold cmd_append, cmd_decrement, cmd_decrement_by, cmd_delete, cmd_echo, cmd_exists, cmd_get,
      cmd_increment, cmd_increment_by, cmd_is, cmd_keys, cmd_length, cmd_rename, cmd_set, cmd_stats,
      cmd_type, resolve_type, append_bytes, append_list, append_string, increment_float_by,
      increment_int_by, set_typed; repeat lacks_go.
Qed.

Lemma lacks_pbind l r p f : lacks l r p -> (forall x, lacks l r (f x)) -> lacks l r (pbind p f).
Proof.
  intros Hp Hf. revert Hp.
  induction p as [x|k c IH|k c IH|k v c IH|k c IH|k d u c IH|k d u c IH|m c IH|dbg m c IH]; cbn; auto.
  - intros [? H]. split; auto.
  - intros [? H]. split; auto.
  - intros [? H]. split; auto.
Qed.

Lemma dispatch_lacks e req res :
  lacks (negb (looks_again (r_command req))) (negb (takes_away (r_command req))) (dispatch_prog e req res).
Proof. apply lacks_pbind; [apply command_lacks|]. by intros []. Qed.

Lemma lacks_mono l r p : lacks l r p -> lacks false r p /\ lacks l false p.
Proof.
  induction p as [x|k c IH|k c IH|k v c IH|k c IH|k d u c IH|k d u c IH|m c IH|dbg m c IH]; cbn.
  - done.
  - intros H. split; intros b; apply IH, H.
  - intros H. split; intros b; apply IH, H.
  - intros H. apply IH, H.
  - intros [-> H]. split; (split; [done|]); intros v; by destruct (IH v (H v)).
  - intros [-> H]. split; (split; [done|]); intros v; by destruct (IH v (H v)).
  - intros [-> H]. split; (split; [done|]); intros v; by destruct (IH v (H v)).
  - intros H. split; intros b; apply IH, H.
  - intros H. apply IH, H.
Qed.

(** Without a loop what is left does not depend on the store. *)
Lemma left_loopless w s s' p n : lacks true false p -> left_to_do w s p n -> left_to_do w s' p n.
Proof. destruct p; try done. by intros [? _]. Qed.

Lemma keeps_removing p l : lacks l true p -> removing p = false.
Proof. destruct p; try done. by intros [? _]. Qed.

(** The measure of client [i] along a schedule. *)
Lemma moves_bound i (loopless : bool) sched ts s ts' s' p n :
  pool_run sched (ts, s) = Some (ts', s') -> ts !! i = Some p -> left_to_do 1 s p n ->
  (if loopless then lacks true false p else
     forall j q, j <> i -> ts !! j = Some q -> lacks false true q) ->
  moves i sched <= n.
Proof.
  revert ts s p n. induction sched as [|j sched IH]; intros ts s p n Hr Hp Hl Hc; [cbn; lia|].
  cbn in Hr. destruct (pool_step j (ts, s)) as [[ts1 s1]|] eqn:Hs; [|done].
  unfold pool_step in Hs. cbn [fst snd] in Hs. destruct (ts !! j) as [q|] eqn:Hq; [|done].
  destruct (pstep q s) as [[q' s2]|] eqn:Hst; [|done]. injection Hs as <- <-.
  pose proof (lookup_lt_Some _ _ _ Hq) as Hlt.
  unfold moves. destruct (decide (j = i)) as [->|Hne].
  - rewrite filter_cons_True by done. rewrite Hp in Hq. injection Hq as <-. cbn [length].
    destruct (step_left 1 p s q' s2 n ltac:(lia) Hst Hl) as (n' & Hn' & Hl').
    assert (moves i sched <= n'); [|unfold moves in *; destruct (removing p); lia].
    eapply (IH _ _ q'); [exact Hr|by rewrite list_lookup_insert|done|].
    destruct loopless; [by eapply lacks_step|]. intros k x Hk Hx.
    rewrite list_lookup_insert_ne in Hx by done. by eapply Hc.
  - rewrite filter_cons_False by congruence.
    eapply (IH _ _ p); [exact Hr|by rewrite list_lookup_insert_ne| |].
    + destruct loopless; [by eapply left_loopless|]. eapply left_other; [|done].
      intros k. eapply step_present; [done|]. eapply keeps_removing, Hc; done.
    + destruct loopless; [done|]. intros k x Hk Hx. destruct (decide (k = j)) as [->|Hkj].
      * rewrite list_lookup_insert in Hx by done. injection Hx as <-. eapply lacks_step; [|done]. by eapply Hc.
      * rewrite list_lookup_insert_ne in Hx by done. by eapply Hc.
Qed.

Lemma start_lookup cs s0 j c : cs !! j = Some c ->
  (start cs s0).1 !! j = Some (dispatch_prog (c_env c) (c_req c) (c_res c)).
Proof. intros H. unfold start. cbn [fst]. change (map ?f cs) with (f <$> cs). by rewrite list_lookup_fmap, H. Qed.

Lemma c91 cs s0 sched ts s i c :
  reaches cs s0 sched ts s -> cs !! i = Some c ->
  looks_again (r_command (c_req c)) = false \/
  (forall j c', j <> i -> cs !! j = Some c' -> takes_away (r_command (c_req c')) = false) ->
  (N.of_nat (moves i sched) <= 7 + arg_count (c_req c))%N.
Proof.
  intros Hr Hc Hcase.
  assert (Hst : forall j c', cs !! j = Some c' ->
    (start cs s0).1 !! j = Some (dispatch_prog (c_env c') (c_req c') (c_res c'))).
  { intros j c' H. unfold start. cbn [fst]. change (map ?f cs) with (f <$> cs). by rewrite list_lookup_fmap, H. }
  cut (moves i sched <= 1 + 6 + N.to_nat (arg_count (c_req c))); [lia|].
  destruct Hcase as [Hc'|Ho].
  - eapply (moves_bound i true); [exact Hr|by apply Hst|apply costs_left; by apply dispatch_costs|].
    pose proof (dispatch_lacks (c_env c) (c_req c) (c_res c)) as H. rewrite Hc' in H.
    by apply lacks_mono in H as [_ H].
  - eapply (moves_bound i false); [exact Hr|by apply Hst|apply costs_left; by apply dispatch_costs|].
    intros j q Hj Hq. unfold start in Hq. cbn [fst] in Hq.
    change (map ?f cs) with (f <$> cs) in Hq. apply list_lookup_fmap_inv in Hq as (c' & -> & Hc').
    pose proof (dispatch_lacks (c_env c') (c_req c') (c_res c')) as H.
    rewrite (Ho j c' Hj Hc') in H. by apply lacks_mono in H as [H _].
Qed.

(** ** Starvation *)

Lemma starve_round (ts : list prog) (s : store) j (k : bytes) d u c c2 :
  ts !! 0 = Some (PKoi k d u c) -> ts !! j = Some (PRemove k c2) -> st_keys s !! k = None ->
  exists ts' s', pool_run [0; 0; j] (ts, s) = Some (ts', s') /\ ts' !! 0 = Some (PKoi k d u c) /\
    st_keys s' !! k = None /\ forall i, i <> j -> ts' !! i = ts !! i.
Proof.
  intros H0 Hj Hk. assert (Hj0 : j <> 0) by (intros ->; congruence).
  destruct ts as [|t ts]; [done|]. cbn in H0. injection H0 as ->.
  destruct j as [|j]; [done|]. cbn in Hj.
  eexists _, _. split_and!.
  - cbn [pool_run]. unfold pool_step. cbn [fst snd lookup list_lookup pstep]. rewrite Hk.
    cbn [fst snd lookup list_lookup pstep insert list_insert]. rewrite Hj.
    cbn [fst snd lookup list_lookup pstep insert list_insert]. reflexivity.
  - done.
  - rewrite st_keys_with. apply lookup_delete.
  - intros [|i] Hi; [done|]. cbn. apply list_lookup_insert_ne. congruence.
Qed.

Lemma moves_app i a b : moves i (a ++ b) = moves i a + moves i b.
Proof. unfold moves. by rewrite filter_app, app_length. Qed.

Lemma starve (n : nat) (ts : list prog) (s : store) (k : bytes) d u c c2 (a : nat) :
  ts !! 0 = Some (PKoi k d u c) -> (forall j, a < j <= a + n -> ts !! j = Some (PRemove k c2)) ->
  st_keys s !! k = None ->
  exists sched ts' s', pool_run sched (ts, s) = Some (ts', s') /\ ts' !! 0 = Some (PKoi k d u c) /\
    moves 0 sched = 2 * n.
Proof.
  revert ts s a. induction n as [|n IH]; intros ts s a H0 Hj Hk.
  - exists [], ts, s. done.
  - destruct (starve_round ts s (S a) k d u c c2) as (ts1 & s1 & Hr & H01 & Hk1 & Hoth); [done|apply Hj; lia|done|].
    destruct (IH ts1 s1 (S a)) as (sched & ts' & s' & Hr' & H0' & Hm); [done| |done|].
    { intros j Hlt. rewrite Hoth by lia. apply Hj. lia. }
    exists ([0; 0; S a] ++ sched), ts', s'. split_and!; [|done|].
    + rewrite pool_run_app, Hr. done.
    + rewrite moves_app, Hm. assert (moves 0 [0; 0; S a] = 2) as ->; [|lia].
      unfold moves. rewrite 2!filter_cons_True by done. by rewrite filter_cons_False.
Qed.

Lemma c91_starves (s0 : store) (n : nat) :
  st_keys s0 !! lit "new"%string = None ->
  exists m sched ts s,
    let cs := ask CIncrement None [lit "new"%string] :: replicate m (ask CDelete None [lit "new"%string]) in
    reaches cs s0 sched ts s /\ n <= moves 0 sched /\ forall r, ts !! 0 <> Some (PRet r).
Proof.
  intros Hk. set (inc := ask CIncrement None [lit "new"%string]). set (del := ask CDelete None [lit "new"%string]).
  assert (H0 : exists d u c, dispatch_prog (c_env inc) (c_req inc) (c_res inc) = PKoi (lit "new"%string) d u c).
  { eexists _, _, _. reflexivity. }
  assert (Hd : exists c2, dispatch_prog (c_env del) (c_req del) (c_res del) = PRemove (lit "new"%string) c2).
  { eexists _. reflexivity. }
  destruct H0 as (d & u & c & H0), Hd as (c2 & Hd).
  destruct (starve n (start (inc :: replicate n del) s0).1 s0 (lit "new"%string) d u c c2 0) as (sched & ts & s & Hr & Ht & Hm).
  - rewrite <-H0. by apply start_lookup.
  - intros j Hj. rewrite <-Hd. apply start_lookup. destruct j as [|j]; [lia|]. cbn [lookup list_lookup].
    apply lookup_replicate_2. lia.
  - done.
  - exists n, sched, ts, s. split_and!; [exact Hr|lia|]. intros r. rewrite Ht. congruence.
Qed.
