(** The calls of tasks that share a memory client return: proofs of C90. *)
From Verif Require Import Locks LockSpec LockFacts LockScripts LockScriptSpec LockScriptFacts.
From Verif Require Import Bytes BytesFacts Value Request Metrics Prog Commands HistorySpec Scripts LinSpec ScriptBound FairSpec
  Client ClientSpec ClientProps MemTasks MemTaskSpec MemTaskFacts.
From stdpp Require Import gmap list.
From Coq Require Import NArith ZArith Lia.

(** What a client has begun and what it has still to do make up its script. *)
Definition in_script (scripts : list (list call)) (x : lsystem) : Prop :=
  length x.1 = length scripts /\
  forall i cl sc, x.1 !! i = Some cl -> scripts !! i = Some sc ->
    lc_todo cl = drop (lbegun cl) sc /\ lbegun cl <= length sc.

Lemma in_script_step sh scripts i mid x y : lsys_step sh i mid x = Some y -> in_script scripts x -> in_script scripts y.
Proof.
  destruct x as [lcs s]. unfold lsys_step. cbn [fst snd]. intros Hs [Hlen H]. cbn [fst] in Hlen, H.
  destruct (lcs !! i) as [cl|] eqn:Hcl; [|done]. pose proof (lookup_lt_Some _ _ _ Hcl) as Hlt.
  assert (Hgo : forall cl' s', (forall sc, scripts !! i = Some sc ->
      lc_todo cl' = drop (lbegun cl') sc /\ lbegun cl' <= length sc) -> in_script scripts (<[i := cl']> lcs, s')).
  { intros cl' s' Hc. split; cbn [fst]; [by rewrite insert_length|]. intros j cl0 sc Hj Hsc.
    destruct (decide (i = j)) as [<-|Hne].
    - rewrite list_lookup_insert in Hj by done. injection Hj as <-. by apply Hc.
    - rewrite list_lookup_insert_ne in Hj by done. by apply (H j). }
  assert (Hsame : forall t t', lc_now cl = Some t ->
    forall sc, scripts !! i = Some sc -> lc_todo (LClient (lc_done cl) (Some t') (lc_todo cl)) =
      drop (lbegun (LClient (lc_done cl) (Some t') (lc_todo cl))) sc /\
      lbegun (LClient (lc_done cl) (Some t') (lc_todo cl)) <= length sc).
  { intros t t' Hnow sc Hsc. destruct (H i cl sc Hcl Hsc) as [H1 H2]. unfold lbegun in *. by rewrite Hnow in *. }
  destruct (lc_now cl) as [t|] eqn:Hnow.
  - assert (Hret : (exists r, t = TIdle (PRet r)) \/ forall r, t <> TIdle (PRet r)).
    { destruct t as [[]| | |]; try (right; done). left. by eexists. }
    destruct Hret as [[r ->]|Hnr].
    + injection Hs as <-. apply Hgo. intros sc Hsc. destruct (H i cl sc Hcl Hsc) as [H1 H2].
      unfold lbegun in *. rewrite Hnow in H1, H2. cbn [lc_done lc_now lc_todo]. rewrite app_length. cbn.
      by rewrite Nat.add_0_r.
    + assert (Hs' : match lact sh t s mid with
           | Some (t', s) => Some (<[i := LClient (lc_done cl) (Some t') (lc_todo cl)]> lcs, s)
           | None => None end = Some y).
      { destruct t as [[r| | | | | | | |]| | |]; try (by destruct (Hnr r));
          match type of Hs with (if ?c then _ else _) = _ => destruct c; [exact Hs|done] | _ => exact Hs end. }
      destruct (lact sh t s mid) as [[t' s']|]; [|done]. injection Hs' as <-. apply Hgo. by eapply Hsame.
  - destruct (lc_todo cl) as [|d rest] eqn:Htodo; [done|]. injection Hs as <-. apply Hgo. intros sc Hsc.
    destruct (H i cl sc Hcl Hsc) as [H1 H2]. unfold lbegun in *. rewrite Hnow, Nat.add_0_r in H1, H2.
    rewrite Htodo in H1. symmetry in H1. cbn [lc_done lc_now lc_todo].
    assert (Hd : sc !! length (lc_done cl) = Some d).
    { pose proof (lookup_drop sc (length (lc_done cl)) 0) as E. rewrite H1 in E. cbn in E. by rewrite Nat.add_0_r in E. }
    pose proof (lookup_lt_Some _ _ _ Hd). rewrite (drop_S _ d) in H1 by done. injection H1 as H1.
    split; [|lia]. rewrite <-H1. f_equal. lia.
Qed.

Lemma in_script_tries sh scripts : forall n f x, in_script scripts x -> in_script scripts (tries sh f n x).
Proof.
  induction n as [|n IH]; intros f x Hx; [done|]. cbn. apply IH. unfold try.
  destruct (lsys_step sh (f 0).1 (f 0).2 x) as [y|] eqn:Hs; [|done]. by eapply in_script_step.
Qed.

Lemma in_script_begin scripts s0 : in_script scripts (lbegin scripts s0).
Proof.
  split; cbn; [by rewrite map_length|]. intros i cl sc Hcl Hsc.
  change (map ?f scripts) with (f <$> scripts) in Hcl. rewrite list_lookup_fmap, Hsc in Hcl. injection Hcl as <-.
  cbn. split; [done|lia].
Qed.

Lemma c90_tasks sh tasks s0 f :
  fair (length tasks) f ->
  exists n, forall m a e c, n <= m -> task_call tasks a = Some (e, c) ->
    exists r, got tasks (tries sh f m (lbegin (map dispatches tasks) s0)) a r.
Proof.
  intros Hf. destruct (c90_fair sh (map dispatches tasks) s0 f) as [n Hn]; [by rewrite map_length|].
  exists n.
  assert (Hfin : forall m g x, Forall lfinished x.1 -> tries sh g m x = x).
  { induction m as [|m IH]; intros g x Hx; [done|]. cbn. assert (E : try sh (g 0) x = x); [|rewrite E; by apply IH].
    unfold try, lsys_step. destruct (x.1 !! (g 0).1) as [cl|] eqn:Hcl; [|done].
    rewrite Forall_lookup in Hx. destruct (Hx _ _ Hcl) as [-> ->]. done. }
  assert (Hadd : forall k g p x, tries sh g (k + p) x = tries sh (fun i => g (k + i)) p (tries sh g k x)).
  { induction k as [|k IH]; intros g p x; [done|]. cbn. by rewrite IH. }
  intros m a e c Hm Hc. replace m with (n + (m - n)) by lia. rewrite Hadd.
  rewrite Hfin by done. set (x := tries sh f n (lbegin (map dispatches tasks) s0)) in *.
  destruct (in_script_tries sh _ n f _ (in_script_begin (map dispatches tasks) s0)) as [Hlen Hin]. fold x in Hlen, Hin.
  unfold task_call in Hc. destruct (tasks !! a.1) as [h|] eqn:Hh; [|done]. cbn in Hc.
  rewrite map_length in Hlen. destruct (lookup_lt_is_Some_2 x.1 a.1) as [cl Hcl].
  { rewrite Hlen. by eapply lookup_lt_Some. }
  rewrite Forall_lookup in Hn. destruct (Hn _ _ Hcl) as [Hnow Htodo].
  destruct (Hin a.1 cl (dispatches h) Hcl) as [H1 H2]; [by rewrite dispatches_lookup, Hh|].
  unfold lbegun in H1, H2. rewrite Hnow, Nat.add_0_r in H1, H2.
  assert (Hd : length (lc_done cl) = length (dispatches h)).
  { rewrite Htodo in H1. apply (f_equal length) in H1. rewrite drop_length in H1. cbn in H1. lia. }
  destruct (lookup_lt_is_Some_2 (results h (lc_done cl)) a.2) as [r Hr].
  { rewrite results_length by done. by eapply lookup_lt_Some. }
  exists r, h, cl. done.
Qed.
