(** The store with its locks does what the store with atomic steps does (C84). *)
From Verif Require Import Bytes BytesFacts Value CommandId Request Metrics Prog Commands Concurrent
  HistorySpec ConcSpec ProgFacts CommandFacts ConcFacts ConcProps ConcExact ConcBound Locks LockSpec.
From stdpp Require Import gmap list list_numbers.
From Coq Require Import NArith ZArith Lia.
From Coq Require Import ZifyBool ZifyNat ZifyN.

(** What is left to do, with an update seen as not yet made. *)
Definition erase (t : lthread) : prog :=
  match t with TIdle p | TGuard p | TUpdate p _ _ | TDone p _ => p end.

(** The key being changed. *)
Definition changing (t : lthread) : option bytes :=
  match t with TUpdate (PKoi k _ _ _) _ _ => Some k | _ => None end.

Record linv (sh : shards) (lts : list lthread) (s : store) (ts : list prog) (s' : store) : Prop := {
  li_ts : ts = map erase lts;
  li_counters : st_counters s = st_counters s';
  li_keys : forall k : bytes, (forall i t, lts !! i = Some t -> changing t <> Some k) ->
    st_keys s !! k = st_keys s' !! k;
  li_update : forall i p v mid, lts !! i = Some (TUpdate p v mid) ->
    exists k d u c, p = PKoi k d u c /\ st_keys s' !! k = Some v;
  li_guard : forall i p, lts !! i = Some (TGuard p) -> needs sh p <> None;
  li_excl : forall i j ti tj a b, i <> j -> lts !! i = Some ti -> lts !! j = Some tj ->
    holding sh ti = Some a -> holding sh tj = Some b -> in_the_way a b = false }.

Lemma changing_holds sh t k : changing t = Some k -> holding sh t = Some (KeyLock (key_shard sh k), true).
Proof. destruct t as [| |[] |]; cbn; try done. by intros [= ->]. Qed.

Lemma in_the_way_sym a b : in_the_way a b = in_the_way b a.
Proof.
  unfold in_the_way. rewrite orb_comm. f_equal. apply bool_decide_ext. split; congruence.
Qed.

(** Whoever has the lock of a key, no other thread is changing it. *)
Lemma lock_excludes sh lts s ts s' i j ti tj k w :
  linv sh lts s ts s' -> i <> j -> lts !! i = Some ti -> lts !! j = Some tj ->
  holding sh ti = Some (KeyLock (key_shard sh k), w) -> changing tj <> Some k.
Proof.
  intros Hi Hne Hti Htj Hh Hc%(changing_holds sh).
  pose proof (li_excl _ _ _ _ _ Hi i j _ _ _ _ Hne Hti Htj Hh Hc) as H.
  unfold in_the_way in H. cbn in H. rewrite bool_decide_true in H by done. by destruct w.
Qed.

Lemma locked_key sh lts s ts s' i t k w :
  linv sh lts s ts s' -> lts !! i = Some t -> changing t <> Some k ->
  holding sh t = Some (KeyLock (key_shard sh k), w) -> st_keys s !! k = st_keys s' !! k.
Proof.
  intros Hi Ht Hc Hh. apply (li_keys _ _ _ _ _ Hi). intros j tj Htj.
  destruct (decide (j = i)) as [->|Hne]; [congruence|].
  eapply (lock_excludes sh lts s ts s' i j t); (done || congruence).
Qed.

Lemma free_spec sh lts a : free_for sh lts a = true ->
  forall i t b, lts !! i = Some t -> holding sh t = Some b -> in_the_way a b = false.
Proof.
  unfold free_for. rewrite forallb_forall. intros H i t b Ht Hb.
  specialize (H t). rewrite Hb in H. apply negb_true_iff. apply H.
  apply elem_of_list_In. by eapply elem_of_list_lookup_2.
Qed.

Lemma erase_insert i t lts : map erase (<[i := t]> lts) = <[i := erase t]> (map erase lts).
Proof. apply (list_fmap_insert erase). Qed.

Lemma erase_lookup i t lts : lts !! i = Some t -> map erase lts !! i = Some (erase t).
Proof. intros H. change (map erase lts) with (erase <$> lts). by rewrite list_lookup_fmap, H. Qed.

(** A change of the keys and counters that stays within the lock of thread [i]. *)
Lemma linv_keep sh lts s ts s' i t t' :
  linv sh lts s ts s' -> lts !! i = Some t -> erase t' = erase t ->
  changing t' = None -> changing t = None ->
  (forall p v m, t' <> TUpdate p v m) -> (forall p, t' = TGuard p -> needs sh p <> None) ->
  (forall a, holding sh t' = Some a -> holding sh t = Some a \/
     holding sh t = None /\ free_for sh lts a = true) ->
  linv sh (<[i := t']> lts) s ts s'.
Proof.
  intros Hi Ht He Hc' Hc Hu Hgu Hh. pose proof (lookup_lt_Some _ _ _ Ht) as Hlt. split.
  - rewrite (li_ts _ _ _ _ _ Hi), erase_insert, He. symmetry. apply list_insert_id. by apply erase_lookup.
  - apply Hi.
  - intros k Hk. apply (li_keys _ _ _ _ _ Hi). intros j tj Htj.
    destruct (decide (j = i)) as [->|Hne]; [congruence|]. apply (Hk j). by rewrite list_lookup_insert_ne.
  - intros j p v mid Hj. destruct (decide (j = i)) as [->|Hne].
    + rewrite list_lookup_insert in Hj by done. injection Hj as ->. by edestruct Hu.
    + rewrite list_lookup_insert_ne in Hj by done. by eapply Hi.
  - intros j q Hj. destruct (decide (j = i)) as [->|Hne].
    + rewrite list_lookup_insert in Hj by done. injection Hj as ->. by apply Hgu.
    + rewrite list_lookup_insert_ne in Hj by done. by eapply Hi.
  - intros j1 j2 t1 t2 a b Hne H1 H2 Ha Hb.
    destruct (decide (j1 = i)) as [->|N1].
    + rewrite list_lookup_insert in H1 by done. injection H1 as <-.
      rewrite list_lookup_insert_ne in H2 by done.
      destruct (Hh a Ha) as [Hh'|[_ Hf]].
      * by eapply (li_excl _ _ _ _ _ Hi i j2).
      * by eapply free_spec.
    + rewrite list_lookup_insert_ne in H1 by done. destruct (decide (j2 = i)) as [->|N2].
      * rewrite list_lookup_insert in H2 by done. injection H2 as <-.
        rewrite in_the_way_sym. destruct (Hh b Hb) as [Hh'|[_ Hf]].
        -- eapply (li_excl _ _ _ _ _ Hi i j1); done.
        -- by eapply free_spec.
      * rewrite list_lookup_insert_ne in H2 by done. by eapply (li_excl _ _ _ _ _ Hi j1 j2).
Qed.

Lemma linv_commit sh lts s ts s' i t p' g s1 s1' :
  linv sh lts s ts s' -> lts !! i = Some t -> holding sh t = Some g ->
  st_counters s1 = st_counters s1' ->
  (forall k : bytes, st_keys s1 !! k = st_keys s1' !! k \/
    st_keys s1 !! k = st_keys s !! k /\ st_keys s1' !! k = st_keys s' !! k /\ changing t <> Some k) ->
  (forall j tj k, j <> i -> lts !! j = Some tj -> changing tj = Some k ->
    st_keys s1' !! k = st_keys s' !! k) ->
  linv sh (<[i := TDone p' g]> lts) s1 (<[i := p']> ts) s1'.
Proof.
  intros Hi Ht Hg Hcnt Hk Ho. pose proof (lookup_lt_Some _ _ _ Ht) as Hlt. split.
  - by rewrite (li_ts _ _ _ _ _ Hi), erase_insert.
  - done.
  - intros k Hn. destruct (Hk k) as [H|(H1 & H2 & H3)]; [done|]. rewrite H1, H2.
    apply (li_keys _ _ _ _ _ Hi). intros j tj Htj.
    destruct (decide (j = i)) as [->|Hne]; [congruence|]. apply (Hn j). by rewrite list_lookup_insert_ne.
  - intros j p v mid Hj. destruct (decide (j = i)) as [->|Hne].
    + by rewrite list_lookup_insert in Hj by done.
    + rewrite list_lookup_insert_ne in Hj by done.
      destruct (li_update _ _ _ _ _ Hi _ _ _ _ Hj) as (k & d & u & c & -> & Hv).
      exists k, d, u, c. split; [done|]. by rewrite (Ho j _ k Hne Hj).
  - intros j q Hj. destruct (decide (j = i)) as [->|Hne].
    + rewrite list_lookup_insert in Hj by done. done.
    + rewrite list_lookup_insert_ne in Hj by done. by eapply Hi.
  - intros j1 j2 t1 t2 a b Hne H1 H2 Ha Hb.
    destruct (decide (j1 = i)) as [->|N1].
    + rewrite list_lookup_insert in H1 by done. injection H1 as <-. cbn in Ha.
      rewrite list_lookup_insert_ne in H2 by done.
      eapply (li_excl _ _ _ _ _ Hi i j2); (done || congruence).
    + rewrite list_lookup_insert_ne in H1 by done. destruct (decide (j2 = i)) as [->|N2].
      * rewrite list_lookup_insert in H2 by done. injection H2 as <-. cbn in Hb.
        eapply (li_excl _ _ _ _ _ Hi j1 i); (done || congruence).
      * rewrite list_lookup_insert_ne in H2 by done. by eapply (li_excl _ _ _ _ _ Hi j1 j2).
Qed.

(** A step of the store under its lock. *)
Lemma guarded_step sh lts s ts s' i p p1 s1 g :
  linv sh lts s ts s' -> lts !! i = Some (TGuard p) -> needs sh p = Some g ->
  pstep p s = Some (p1, s1) ->
  exists s1', pstep p s' = Some (p1, s1') /\ linv sh (<[i := TDone p1 g]> lts) s1 (<[i := p1]> ts) s1'.
Proof.
  intros Hi Ht Hg Hs.
  assert (Hk : forall k w, needs sh p = Some (KeyLock (key_shard sh k), w) ->
    st_keys s !! k = st_keys s' !! k).
  { intros k w Hn. by eapply (locked_key sh lts s ts s' i (TGuard p)). }
  assert (Ho : forall k w, needs sh p = Some (KeyLock (key_shard sh k), w) ->
    forall j tj k', j <> i -> lts !! j = Some tj -> changing tj = Some k' -> k <> k').
  { intros k w Hn j tj k' Hne Hj Hc ->.
    by eapply (lock_excludes sh lts s ts s' i j (TGuard p) tj k' w). }
  pose proof (li_counters _ _ _ _ _ Hi) as Hcnt.
  destruct p as [r|k c|k c|k v c|k c|k d u c|k d u c|m c|dbg m c]; cbn in Hs, Hg |- *; try done.
  - rewrite <- (Hk k false) by done. injection Hs as <- <-. eexists. split; [done|].
    eapply linv_commit; [done..|by right|done].
  - rewrite <- (Hk k false) by done. injection Hs as <- <-. eexists. split; [done|].
    eapply linv_commit; [done..|by right|done].
  - injection Hs as <- <-. eexists. split; [done|]. eapply linv_commit; [done..| |].
    + intros x. rewrite !st_keys_with. destruct (decide (k = x)) as [->|].
      * left. by rewrite !lookup_insert.
      * right. by rewrite !lookup_insert_ne.
    + intros j tj x Hne Hj Hx. rewrite st_keys_with, lookup_insert_ne; [done|]. by eapply Ho.
  - rewrite <- (Hk k true) by done. injection Hs as <- <-. eexists. split; [done|].
    eapply linv_commit; [done..| |].
    + intros x. rewrite !st_keys_with. destruct (decide (k = x)) as [->|].
      * left. by rewrite !lookup_delete.
      * right. by rewrite !lookup_delete_ne.
    + intros j tj x Hne Hj Hx. rewrite st_keys_with, lookup_delete_ne; [done|]. by eapply Ho.
  - rewrite <- (Hk k true) by done. destruct (st_keys s !! k) as [v|] eqn:Hv.
    + destruct (u v) as [v' r]. injection Hs as <- <-. eexists. split; [done|].
      eapply linv_commit; [done..| |].
      * intros x. rewrite !st_keys_with. destruct (decide (k = x)) as [->|].
        -- left. by rewrite !lookup_insert.
        -- right. by rewrite !lookup_insert_ne.
      * intros j tj x Hne Hj Hx. rewrite st_keys_with, lookup_insert_ne; [done|]. by eapply Ho.
    + injection Hs as <- <-. eexists. split; [done|]. eapply linv_commit; [done..|by right|done].
  - injection Hs as <- <-. eexists. split; [done|]. eapply linv_commit; [done..| |].
    + intros x. rewrite !st_keys_with. destruct (decide (k = x)) as [->|].
      * left. by rewrite !lookup_insert.
      * right. by rewrite !lookup_insert_ne.
    + intros j tj x Hne Hj Hx. rewrite st_keys_with, lookup_insert_ne; [done|]. by eapply Ho.
  - rewrite <- Hcnt. injection Hs as <- <-. eexists. split; [done|].
    eapply linv_commit; [done..|by right|done].
  - rewrite <- Hcnt. destruct (counters_increment dbg (st_counters s) m) as [cs|].
    + injection Hs as <- <-. eexists. split; [done|]. eapply linv_commit; [done..|by right|done].
    + injection Hs as <- <-. eexists. split; [done|]. eapply linv_commit; [done..|by right|done].
Qed.

(** For counting: steps still due of an operation that is done or planned, and steps made of one
    that is not done. *)
Definition early (t : lthread) : nat :=
  match t with TDone _ _ => 1 | TUpdate _ _ mid => length mid | _ => 0 end.
Definition late (t : lthread) : nat :=
  match t with TGuard _ => 1 | TUpdate _ _ _ => 2 | _ => 0 end.

(** Where a thread is in its operation; it only goes down until the operation is done. *)
Definition phase (t : lthread) : nat :=
  match t with TDone _ _ => 3 | TIdle _ => 2 | TGuard _ => 1 | TUpdate _ _ _ => 0 end.

(** Every step of the locked store is a step of the atomic store, or none. *)
Lemma lstep_sim sh lts s ts s' i mid lts1 s1 :
  linv sh lts s ts s' -> lstep sh i mid (lts, s) = Some (lts1, s1) ->
  exists t t', lts !! i = Some t /\ lts1 = <[i := t']> lts /\
  (linv sh lts1 s1 ts s' /\ 1 + early t' + late t <= early t + late t' + length mid /\
     (phase t' < phase t \/ phase t' = phase t /\ early t' < early t) \/
   exists ts1 s1', pool_step i (ts, s') = Some (ts1, s1') /\ linv sh lts1 s1 ts1 s1' /\
     1 + early t' + late t <= 4 + early t + late t' + length mid).
Proof.
  intros Hi Hs. unfold lstep in Hs. cbn [fst snd] in Hs.
  destruct (lts !! i) as [t|] eqn:Ht; [|done]. exists t.
  assert (Hts : ts !! i = Some (erase t)).
  { rewrite (li_ts _ _ _ _ _ Hi). by apply erase_lookup. }
  destruct t as [p|p|p v m|p g]; cbn [lact] in Hs.
  - destruct (needs sh p) as [g|] eqn:Hg; [|done].
    destruct (free_for sh lts g) eqn:Hf; [|done]. injection Hs as <- <-.
    eexists. split_and!; [done..|]. left. split; [|split; cbn; lia].
    eapply linv_keep; [done..| |].
    { intros q [= ->]. congruence. }
    cbn. intros a. rewrite Hg. intros [= <-]. by right.
  - destruct (needs sh p) as [g|] eqn:Hg; [|done].
    assert (Hstep : forall p1 s1', pstep p s = Some (p1, s1') ->
      exists ts1 s2, pool_step i (ts, s') = Some (ts1, s2) /\ linv sh (<[i := TDone p1 g]> lts) s1' ts1 s2).
    { intros p1 s2 Hp. destruct (guarded_step sh lts s ts s' i p p1 s2 g Hi Ht Hg Hp) as (s2' & Hp' & Hinv).
      exists (<[i := p1]> ts), s2'. split; [|done]. unfold pool_step. cbn [fst snd]. rewrite Hts. cbn.
      by rewrite Hp'. }
    destruct p as [r|k c|k c|k v c|k c|k d u c|k d u c|m c|dbg m c].
    6: { destruct (st_keys s !! k) as [v|] eqn:Hv.
      - injection Hs as <- <-. eexists. split_and!; [done..|]. left. split; [|split; cbn; lia]. cbn in Hg. injection Hg as <-.
        assert (Hv' : st_keys s' !! k = Some v).
        { rewrite <- Hv. symmetry. by eapply (locked_key sh lts s ts s' i _ k true). }
        pose proof (lookup_lt_Some _ _ _ Ht) as Hlt. split.
        + rewrite erase_insert, (li_ts _ _ _ _ _ Hi). symmetry. apply list_insert_id. by apply (erase_lookup _ _ _ Ht).
        + apply Hi.
        + intros x Hx. apply (li_keys _ _ _ _ _ Hi). intros j tj Htj.
          destruct (decide (j = i)) as [->|Hne]; [rewrite Ht in Htj; by injection Htj as <-|].
          apply (Hx j). by rewrite list_lookup_insert_ne.
        + intros j q w m' Hj. destruct (decide (j = i)) as [->|Hne].
          * rewrite list_lookup_insert in Hj by done. injection Hj as <- <- <-. eauto 10.
          * rewrite list_lookup_insert_ne in Hj by done. by eapply Hi.
        + intros j q Hj. destruct (decide (j = i)) as [->|Hne].
    * rewrite list_lookup_insert in Hj by done. done.
    * rewrite list_lookup_insert_ne in Hj by done. by eapply Hi.
        + intros j1 j2 t1 t2 a b Hne H1 H2 Ha Hb.
          destruct (decide (j1 = i)) as [->|N1].
          * rewrite list_lookup_insert in H1 by done. injection H1 as <-.
            rewrite list_lookup_insert_ne in H2 by done. by eapply (li_excl _ _ _ _ _ Hi i j2).
          * rewrite list_lookup_insert_ne in H1 by done. destruct (decide (j2 = i)) as [->|N2].
            -- rewrite list_lookup_insert in H2 by done. injection H2 as <-.
               by eapply (li_excl _ _ _ _ _ Hi j1 i).
            -- rewrite list_lookup_insert_ne in H2 by done. by eapply (li_excl _ _ _ _ _ Hi j1 j2).
      - cbn in Hs. rewrite Hv in Hs. injection Hs as <- <-. eexists. split_and!; [done..|]. right.
        destruct (Hstep _ _ ltac:(cbn; rewrite Hv; reflexivity)) as (ts1 & s2 & H1 & H2).
        exists ts1, s2. split_and!; [done..|cbn; lia]. }
    all: match type of Hs with context [pstep ?p ?s] =>
           destruct (pstep p s) as [[p1 s2]|] eqn:Hp; [|done] end;
         injection Hs as <- <-; eexists; (split_and!; [done..|]); right;
         destruct (Hstep _ _ eq_refl) as (ts1 & s2' & H1 & H2); exists ts1, s2';
         split_and!; [done..|cbn; lia].
  - destruct (li_update _ _ _ _ _ Hi _ _ _ _ Ht) as (k & d & u & c & -> & Hv).
    pose proof (lookup_lt_Some _ _ _ Ht) as Hlt.
    destruct m as [|x m].
    + destruct (u v) as [v' r] eqn:Hu. injection Hs as <- <-. eexists. split_and!; [done..|]. right.
      exists (<[i := c r]> ts), (with_keys s' (<[k := v']> (st_keys s'))).
      split_and!; [| |cbn; lia].
      { unfold pool_step. cbn [fst snd]. rewrite Hts. cbn. by rewrite Hv, Hu. }
      eapply linv_commit; [done..|apply Hi| |].
      * intros x. rewrite !st_keys_with. destruct (decide (k = x)) as [->|].
        -- left. by rewrite !lookup_insert.
        -- right. rewrite !lookup_insert_ne by done. split_and!; [done..|]. cbn. congruence.
      * intros j tj x Hne Hj Hx. rewrite st_keys_with, lookup_insert_ne; [done|]. intros ->.
        by eapply (lock_excludes sh lts s ts s' i j _ tj x true).
    + injection Hs as <- <-. eexists. split_and!; [done..|]. left. split; [|split; cbn; lia]. split.
      * rewrite erase_insert, (li_ts _ _ _ _ _ Hi). symmetry. apply list_insert_id. by apply (erase_lookup _ _ _ Ht).
      * apply Hi.
      * intros y Hy. rewrite st_keys_with. assert (k <> y).
        { intros ->. eapply (Hy i); [by rewrite list_lookup_insert|done]. }
        rewrite lookup_insert_ne by done. apply (li_keys _ _ _ _ _ Hi). intros j tj Htj.
        destruct (decide (j = i)) as [->|Hne]; [rewrite Ht in Htj; injection Htj as <-; cbn; congruence|].
        apply (Hy j). by rewrite list_lookup_insert_ne.
      * intros j q w m' Hj. destruct (decide (j = i)) as [->|Hne].
        -- rewrite list_lookup_insert in Hj by done. injection Hj as <- <- <-. eauto 10.
        -- rewrite list_lookup_insert_ne in Hj by done. by eapply Hi.
      * intros j q Hj. destruct (decide (j = i)) as [->|Hne].
    -- rewrite list_lookup_insert in Hj by done. done.
    -- rewrite list_lookup_insert_ne in Hj by done. by eapply Hi.
      * intros j1 j2 t1 t2 a b Hne H1 H2 Ha Hb.
        destruct (decide (j1 = i)) as [->|N1].
        -- rewrite list_lookup_insert in H1 by done. injection H1 as <-.
           rewrite list_lookup_insert_ne in H2 by done. by eapply (li_excl _ _ _ _ _ Hi i j2).
        -- rewrite list_lookup_insert_ne in H1 by done. destruct (decide (j2 = i)) as [->|N2].
           ++ rewrite list_lookup_insert in H2 by done. injection H2 as <-.
              by eapply (li_excl _ _ _ _ _ Hi j1 i).
           ++ rewrite list_lookup_insert_ne in H2 by done. by eapply (li_excl _ _ _ _ _ Hi j1 j2).
  - injection Hs as <- <-. eexists. split_and!; [done..|]. left. split; [|split; cbn; lia].
    eapply linv_keep; try done.
Qed.

Lemma sum_map_insert (f : lthread -> nat) lts i t t' :
  lts !! i = Some t -> sum_list (map f (<[i := t']> lts)) + f t = sum_list (map f lts) + f t'.
Proof.
  intros H. change (map f (<[i:=t']> lts)) with (f <$> <[i:=t']> lts). rewrite list_fmap_insert.
  apply sum_insert. change (map f lts) with (f <$> lts). by rewrite list_lookup_fmap, H.
Qed.

Lemma linv_start sh cs s : linv sh (lock_start cs s).1 s (start cs s).1 s.
Proof.
  assert (Hid : forall i t, (lock_start cs s).1 !! i = Some t -> exists p, t = TIdle p).
  { intros i t. unfold lock_start. cbn [fst].
    change (map TIdle ?l) with (TIdle <$> l). rewrite list_lookup_fmap.
    destruct (_ !! i); [|done]. intros [= <-]. eauto. }
  split.
  - unfold lock_start. cbn [fst]. rewrite map_map. cbn. by rewrite map_id.
  - done.
  - done.
  - intros i p v mid H. by apply Hid in H as [? ?].
  - intros i p H. by apply Hid in H as [? ?].
  - intros i j ti tj a b _ Hti Htj Ha _. apply Hid in Hti as [p ->]. done.
Qed.

Definition mids (sched : list (nat * list value)) : nat :=
  sum_list (map (fun x => length x.2) sched).

Lemma mids_snoc sched i mid : mids (sched ++ [(i, mid)]) = mids sched + length mid.
Proof.
  unfold mids. induction sched as [|x sched IH]; cbn in *; lia.
Qed.

Lemma lrun_app sh a b x :
  lrun sh (a ++ b) x = match lrun sh a x with Some y => lrun sh b y | None => None end.
Proof.
  revert x. induction a as [|[i mid] a IH]; intros x; cbn; [done|].
  destruct (lstep sh i mid x); [apply IH|done].
Qed.

Lemma lrun_sim sh cs s0 lsched lts s :
  lock_reaches sh cs s0 lsched lts s ->
  exists sched ts s', reaches cs s0 sched ts s' /\ linv sh lts s ts s' /\
    sublist sched (map fst lsched) /\
    length lsched + sum_list (map early lts) <=
      4 * length sched + sum_list (map late lts) + mids lsched.
Proof.
  unfold lock_reaches. revert lts s. induction lsched as [|[i mid] lsched IH] using rev_ind; intros lts s Hr.
  - injection Hr as <- <-. exists [], (start cs s0).1, s0. split_and!.
    + done.
    + apply linv_start.
    + constructor.
    + assert (H : sum_list (map early (lock_start cs s0).1) = 0); [|cbn in *; lia].
      unfold lock_start. cbn [fst]. rewrite map_map. induction (start cs s0).1; [done|]. cbn in *. lia.
  - rewrite lrun_app in Hr. destruct (lrun sh lsched (lock_start cs s0)) as [[lts1 s1]|] eqn:Hr1; [|done].
    destruct (IH lts1 s1 eq_refl) as (sched & ts & s' & Hre & Hinv & Hsub & Hlen). cbn in Hr.
    destruct (lstep sh i mid (lts1, s1)) as [[lts2 s2]|] eqn:Hs; [|done]. injection Hr as -> ->.
    destruct (lstep_sim _ _ _ _ _ _ _ _ _ Hinv Hs) as (t & t' & Ht & -> & Hsim).
    pose proof (sum_map_insert early lts1 i t t' Ht) as He.
    pose proof (sum_map_insert late lts1 i t t' Ht) as Hl.
    rewrite map_app, app_length, mids_snoc. cbn [map fst length].
    destruct Hsim as [(Hinv' & Hc & _)|(ts1 & s1' & Hst & Hinv' & Hc)].
    + exists sched, ts, s'. split_and!; [done..| |lia].
      etrans; [exact Hsub|]. by apply sublist_inserts_r.
    + exists (sched ++ [i]), ts1, s1'. split_and!; [|done| |rewrite app_length; cbn; lia].
      * unfold reaches. rewrite pool_run_app. unfold reaches in Hre. rewrite Hre. cbn. by rewrite Hst.
      * by apply sublist_app.
Qed.

Lemma c84_atomic sh cs s0 lsched lts s :
  lock_reaches sh cs s0 lsched lts s ->
  exists sched ts s', reaches cs s0 sched ts s' /\ sublist sched (map fst lsched) /\
    (forall i t r, lts !! i = Some t -> has_returned t r -> ts !! i = Some (PRet r)) /\
    (Forall (no_lock sh) lts -> s = s').
Proof.
  intros Hr. destruct (lrun_sim _ _ _ _ _ _ Hr) as (sched & ts & s' & Hre & Hinv & Hsub & _).
  exists sched, ts, s'. split_and!; [done..| |].
  - intros i t r Ht ->. rewrite (li_ts _ _ _ _ _ Hinv). apply (erase_lookup _ _ _ Ht).
  - intros Hn. pose proof (li_counters _ _ _ _ _ Hinv) as Hcnt.
    assert (Hk : st_keys s = st_keys s').
    { apply map_eq. intros k. apply (li_keys _ _ _ _ _ Hinv). intros i t Ht Hc%(changing_holds sh).
      rewrite Forall_forall in Hn. specialize (Hn t). unfold no_lock in Hn.
      rewrite Hc in Hn. by specialize (Hn ltac:(by eapply elem_of_list_lookup_2)). }
    destruct s, s'. cbn in *. congruence.
Qed.

Lemma c84_all sh cs s0 lsched lts s rs :
  lock_reaches sh cs s0 lsched lts s -> all_back lts rs ->
  exists sched ts, reaches cs s0 sched ts s /\ all_returned ts rs /\ sublist sched (map fst lsched).
Proof.
  intros Hr Hb. destruct (lrun_sim _ _ _ _ _ _ Hr) as (sched & ts & s' & Hre & Hinv & Hsub & _).
  assert (Hts : lts = map (fun r => TIdle (PRet r)) rs).
  { clear -Hb. induction Hb as [|t r lts rs Ht _ IH]; [done|]. cbn. by rewrite Ht, IH. }
  assert (s = s') as ->.
  { assert (Hk : st_keys s = st_keys s').
    { apply map_eq. intros k. apply (li_keys _ _ _ _ _ Hinv). intros i t Ht.
      rewrite Hts in Ht. change (map ?f rs !! i) with ((f <$> rs) !! i) in Ht.
      rewrite list_lookup_fmap in Ht. destruct (rs !! i); [|done]. by injection Ht as <-. }
    pose proof (li_counters _ _ _ _ _ Hinv) as Hcnt. destruct s, s'. cbn in *. congruence. }
  exists sched, ts. split_and!; [done| |done].
  unfold all_returned. rewrite (li_ts _ _ _ _ _ Hinv), Hts, map_map. done.
Qed.

Lemma linv_moves sh lts s ts s' i t :
  linv sh lts s ts s' -> lts !! i = Some t ->
  (~ no_lock sh t -> forall mid, exists y, lstep sh i mid (lts, s) = Some y) /\
  (Forall (no_lock sh) lts -> (forall r, ~ has_returned t r) ->
   forall mid, exists y, lstep sh i mid (lts, s) = Some y).
Proof.
  intros Hinv Ht.
  unfold lstep. cbn [fst snd]. rewrite Ht. split.
  - unfold no_lock. intros Hn mid. destruct t as [p|p|p v m|p g]; [done| | |].
    + cbn in Hn |- *. destruct (needs sh p) as [g|] eqn:Hg; [|done].
      destruct p as [r|k c|k c|k v c|k c|k d u c|k d u c|m c|dbg m c]; cbn; try done; try by eexists.
      * destruct (st_keys s !! k); by eexists.
      * destruct (counters_increment _ _ _); by eexists.
    + destruct (li_update _ _ _ _ _ Hinv _ _ _ _ Ht) as (k & d & u & c & -> & Hv).
      destruct m; cbn; [destruct (u v)|]; by eexists.
    + by eexists.
  - intros Hf Hn mid. destruct t as [p|p|p v m|p g].
    + cbn. destruct (needs sh p) as [g|] eqn:Hg.
      * assert (free_for sh lts g = true) as ->.
        { unfold free_for. apply forallb_forall. intros x Hx%elem_of_list_In.
          rewrite Forall_forall in Hf. specialize (Hf x Hx). unfold no_lock in Hf. by rewrite Hf. }
        by eexists.
      * destruct p as [r| | | | | | | |]; try done. by destruct (Hn r).
    + exfalso. rewrite Forall_forall in Hf. specialize (Hf _ (elem_of_list_lookup_2 _ _ _ Ht)).
      by apply (li_guard _ _ _ _ _ Hinv _ _ Ht).
    + exfalso. rewrite Forall_forall in Hf. specialize (Hf _ (elem_of_list_lookup_2 _ _ _ Ht)).
      destruct (li_update _ _ _ _ _ Hinv _ _ _ _ Ht) as (k & d & u & c & -> & Hv). done.
    + exfalso. rewrite Forall_forall in Hf. pose proof (Hf _ (elem_of_list_lookup_2 _ _ _ Ht)) as Hf'. done.
Qed.

Lemma c84_no_deadlock sh cs s0 lsched lts s i t :
  lock_reaches sh cs s0 lsched lts s -> lts !! i = Some t ->
  (~ no_lock sh t -> forall mid, exists y, lstep sh i mid (lts, s) = Some y) /\
  (Forall (no_lock sh) lts -> (forall r, ~ has_returned t r) ->
   forall mid, exists y, lstep sh i mid (lts, s) = Some y).
Proof.
  intros Hr Ht. destruct (lrun_sim _ _ _ _ _ _ Hr) as (sched & ts & s' & Hre & Hinv & _).
  by eapply linv_moves.
Qed.

Lemma c84_bounded sh cs s0 lsched lts s :
  lock_reaches sh cs s0 lsched lts s ->
  (lenN lsched <= 4 * (lenN cs * (2 * lenN cs + 7) + fold_right (fun c n => arg_count (c_req c) + n) 0 cs)
    + 2 * lenN cs + fold_right (fun x n => lenN x.2 + n) 0 lsched)%N.
Proof.
  intros Hr. destruct (lrun_sim _ _ _ _ _ _ Hr) as (sched & ts & s' & Hre & Hinv & _ & Hlen).
  pose proof (c55_bounded _ _ _ _ _ Hre) as Hb.
  assert (Hl : sum_list (map late lts) <= 2 * length lts).
  { clear. induction lts as [|[] lts IH]; cbn in *; lia. }
  assert (Hn : length lts = length cs).
  { rewrite <- (map_length erase), <- (li_ts _ _ _ _ _ Hinv). 
    assert (forall sched x y, pool_run sched x = Some y -> length y.1 = length x.1) as Hpl.
    { clear. induction sched as [|i sched IH]; intros x y; cbn; [by intros [= ->]|].
      destruct (pool_step i x) as [z|] eqn:Hz; [|done]. intros H%IH. rewrite H.
      by apply pool_step_length in Hz. }
    apply Hpl in Hre. cbn in Hre. by rewrite map_length in Hre. }
  assert (Hm : N.of_nat (mids lsched) = fold_right (fun x n => lenN x.2 + n)%N 0%N lsched).
  { clear. unfold mids. induction lsched as [|[i m] lsched IH]; [done|].
    cbn [map sum_list fold_right fst snd] in *. rewrite <- IH. unfold lenN. cbn. lia. }
  rewrite <- Hm. unfold lenN in *. lia.
Qed.

Lemma c84_increments sh cs s0 k z0 ds lsched lts s rs :
  room_for cs s0 -> st_keys s0 !! k = Some (VInteger z0) -> ordinary k ->
  Forall2 (fun c d => adds_int c k d \/ (~ may_write (c_req c) k /\ d = 0%Z)) cs ds ->
  Forall i64_range ds -> (forall bs, i64_range (z0 + picked ds bs)) ->
  lock_reaches sh cs s0 lsched lts s -> all_back lts rs ->
  st_keys s !! k = Some (VInteger (z0 + foldr Z.add 0%Z ds)) /\
  forall i c d r, cs !! i = Some c -> ds !! i = Some d -> adds_int c k d -> rs !! i = Some r ->
    is_ok r = true.
Proof.
  intros H1 H2 H3 H4 H5 H6 Hr Hb.
  destruct (c84_all _ _ _ _ _ _ _ Hr Hb) as (sched & ts & Hre & Har & _).
  by eapply c51_exact.
Qed.
