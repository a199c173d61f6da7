(** What a call that changes a key was told was so when it changed it: proofs of C124. *)
From Verif Require Import Locks LockSpec LockFacts LockScripts LockScriptSpec LockScriptFacts.
From Verif Require Import Bytes BytesFacts Utf8 Float64 Value CommandId Request RequestSpec RequestFacts Response RespContext WireSpec
  EngineSpec Metrics Prog ProgFacts Commands CommandFacts HistorySpec EngineFacts EngineProps Concurrent ConcSpec ConcFacts Scripts LinSpec
  LinFacts KeyLinSpec KeyLin KeyLinFacts IsoSpec IsoFacts ScriptInv MomentSpec MomentFacts
  Client ClientSpec ClientFacts ClientProps MemTasks MemTaskSpec MemTaskFacts MemRaceSpec MemRaceFacts MemForwardSpec MemForward
  SeenSpec SeenFacts WroteSpec.
From Verif Require MemLin MemFair.
From stdpp Require Import gmap list.
From Coq Require Import NArith ZArith Lia.
From Coq Require Import ZifyBool ZifyNat ZifyN.

(** ** Programs that read and write *)

(** Whatever the program finds at the keys when it looks ([M]) or puts something else there ([C]), one after the
    other from the time [t] on, what it returns satisfies [R], at the time when it last did so. *)
Fixpoint finds (M : bytes -> nat -> option value -> Prop) (C : bytes -> nat -> nat -> option value -> option value -> Prop)
  (R : nat -> cres -> Prop) (t : nat) (p : prog) : Prop :=
  match p with
  | PRet r => R t r
  | PContains k c => forall n o, t <= n -> M k n o -> finds M C R n (c (match o with Some _ => true | None => false end))
  | PGet k c => forall n o, t <= n -> M k n o -> finds M C R n (c o)
  | PInsert k v c => forall n n' o, t <= n -> C k n n' o (Some v) -> finds M C R n' c
  | PRemove k c => forall n n' o, t <= n -> C k n n' o None -> finds M C R n' (c o)
  | PKoi k _ u c | PKoiIns k _ u c =>
    forall n n' v, t <= n -> C k n n' (Some v) (Some (u v).1) -> finds M C R n' (c (u v).2)
  | PCounter _ c => forall v, finds M C R t (c v)
  | PIncr _ _ c => finds M C R t c
  end.

Lemma finds_pbind M C (R R' : nat -> cres -> Prop) p f : forall t,
  finds M C R t p -> (forall t r, R t r -> finds M C R' t (f r)) -> finds M C R' t (pbind p f).
Proof.
  intros t Hp Hf. revert t Hp.
  induction p as [r|k c IH|k c IH|k v c IH|k c IH|k d u c IH|k d u c IH|m c IH|d m c IH];
    intros t Hp; cbn in *; try done; eauto.
Qed.

Lemma finds_dispatch M C (R : nat -> cres -> Prop) t e req res :
  finds M C R t (command_prog e req res) -> finds M C R t (dispatch_prog e req res).
Proof.
  intros H. unfold dispatch_prog. eapply finds_pbind; [exact H|]. by intros ? [] ?.
Qed.

(** ** Locks *)

Lemma lact_elsewhere sh t s mid t' s' k :
  lact sh t s mid = Some (t', s') -> holding sh t <> Some (KeyLock (key_shard sh k), true) ->
  st_keys s' !! k = st_keys s !! k.
Proof.
  intros Ha Hh.
  assert (Hne : forall k', needs sh (erase t) = Some (KeyLock (key_shard sh k'), true) ->
    match t with TGuard _ | TUpdate _ _ _ => True | _ => False end -> k' <> k).
  { intros k' Hn Ht ->. by destruct t. }
  destruct t as [p|p|p v mi|p g]; cbn [lact] in Ha.
  - destruct (needs sh p); [|done]. by injection Ha as <- <-.
  - destruct p as [r|k' q|k' q|k' v q|k' q|k' d u q|k' d u q|m q|d m q]; cbn in Ha; try done;
      try (by injection Ha as <- <-); specialize (Hne k') || clear Hne.
    + injection Ha as <- <-. unfold with_keys; cbn [st_keys snd]. rewrite lookup_insert_ne; [done|]. by apply Hne.
    + injection Ha as <- <-. unfold with_keys; cbn [st_keys snd]. rewrite lookup_delete_ne; [done|]. by apply Hne.
    + destruct (st_keys s !! k') eqn:E; [by injection Ha as <- <-|]. by injection Ha as <- <-.
    + injection Ha as <- <-. unfold with_keys; cbn [st_keys snd]. rewrite lookup_insert_ne; [done|]. by apply Hne.
    + destruct (counters_increment d (st_counters s) m); by injection Ha as <- <-.
  - destruct p as [r|k' q|k' q|k' w q|k' q|k' d u q|k' d u q|m q|d m q]; try done.
    destruct mi as [|w mi].
    + destruct (u v). injection Ha as <- <-. unfold with_keys; cbn [st_keys snd]. rewrite lookup_insert_ne; [done|]. by apply Hne.
    + injection Ha as <- <-. unfold with_keys; cbn [st_keys snd]. rewrite lookup_insert_ne; [done|]. by apply Hne.
  - by injection Ha as <- <-.
Qed.

Lemma excl_write sh x y i j cl cl' k : sinv sh x y -> i <> j -> x.1 !! i = Some cl -> x.1 !! j = Some cl' ->
  holding sh (lc_thread cl) = Some (KeyLock (key_shard sh k), true) ->
  holding sh (lc_thread cl') <> Some (KeyLock (key_shard sh k), true).
Proof.
  intros [_ Hinv] Hne Hi Hj Hh Hh'.
  pose proof (li_excl _ _ _ _ _ Hinv i j _ _ _ _ Hne (map_lookup lc_thread _ _ _ Hi) (map_lookup lc_thread _ _ _ Hj) Hh Hh') as H.
  unfold in_the_way in H. cbn in H. by rewrite bool_decide_true in H.
Qed.

Lemma free_unlocked sh (x : lsystem) k :
  free_for sh (map lc_thread x.1) (KeyLock (key_shard sh k), true) = true -> unlocked sh x k.
Proof.
  intros H cl Hcl Hh. apply elem_of_list_lookup_1 in Hcl as [j Hj].
  pose proof (free_spec _ _ _ H j _ _ (map_lookup lc_thread _ _ _ Hj) Hh) as E.
  unfold in_the_way in E. cbn in E. by rewrite bool_decide_true in E.
Qed.

(** The key an operation writes to. *)
Definition target (p : prog) : option bytes :=
  match p with PInsert k _ _ | PRemove k _ | PKoi k _ _ _ | PKoiIns k _ _ _ => Some k | _ => None end.

Lemma run_grows sh sched : forall x y i cl, lsys_run sh sched x = Some y -> x.1 !! i = Some cl ->
  exists cl', y.1 !! i = Some cl' /\ length (lc_done cl) <= length (lc_done cl') /\ lbegun cl <= lbegun cl'.
Proof.
  induction sched as [|[j mid] sched IH]; intros x y i cl Hy Hcl.
  { cbn in Hy. injection Hy as <-. by exists cl. }
  cbn in Hy. destruct (lsys_step sh j mid x) as [z|] eqn:Hs; [|done].
  assert (Hz : exists cl1, z.1 !! i = Some cl1 /\ length (lc_done cl) <= length (lc_done cl1) /\ lbegun cl <= lbegun cl1).
  { unfold lsys_step in Hs. destruct (x.1 !! j) as [clj|] eqn:Hj; [|done].
    pose proof (lookup_lt_Some _ _ _ Hj) as Hlt.
    assert (Hgo : forall cl1 s, z = (<[j := cl1]> x.1, s) -> length (lc_done clj) <= length (lc_done cl1) /\ lbegun clj <= lbegun cl1 ->
      exists cl1, z.1 !! i = Some cl1 /\ length (lc_done cl) <= length (lc_done cl1) /\ lbegun cl <= lbegun cl1).
    { intros cl1 s -> H. cbn [fst]. destruct (decide (j = i)) as [->|Hne].
      - exists cl1. rewrite list_lookup_insert by done. assert (clj = cl) as -> by congruence. done.
      - exists cl. rewrite list_lookup_insert_ne by done. done. }
    unfold lbegun in *. destruct (lc_now clj) as [t|] eqn:Hnow.
    2: { destruct (lc_todo clj); [done|]. injection Hs as <-. eapply Hgo; [reflexivity|]. cbn. lia. }
    assert (Hact : forall t', (match lact sh t' x.2 mid with
        | Some (t1, s) => Some (<[j := LClient (lc_done clj) (Some t1) (lc_todo clj)]> x.1, s)
        | None => None end) = Some z -> exists cl1, z.1 !! i = Some cl1 /\ length (lc_done cl) <= length (lc_done cl1) /\
          length (lc_done cl) + match lc_now cl with Some _ => 1 | None => 0 end <= length (lc_done cl1) + match lc_now cl1 with Some _ => 1 | None => 0 end).
    { intros t' H. destruct (lact sh t' x.2 mid) as [[t1 s]|]; [|done]. injection H as <-. eapply Hgo; [reflexivity|]. cbn. lia. }
    destruct t as [p|p|p v mi|p g]; [|by eapply Hact..].
    destruct p; try (match type of Hs with (if ?b then _ else _) = _ => destruct b; [|done] end; by eapply Hact).
    injection Hs as <-. eapply Hgo; [reflexivity|]. cbn. rewrite app_length. cbn. lia. }
  destruct Hz as (cl1 & Hcl1 & H1 & H2). destruct (IH _ _ _ _ Hy Hcl1) as (cl2 & Hcl2 & H3 & H4).
  exists cl2. split_and!; [done|lia|lia].
Qed.

Lemma run_between sh scripts s0 (sched : list (nat * list value)) n m y z :
  lsys_run sh (take n sched) (lbegin scripts s0) = Some y -> n <= m ->
  lsys_run sh (take m sched) (lbegin scripts s0) = Some z ->
  exists l, lsys_run sh l y = Some z.
Proof.
  intros Hy Hle Hz. replace (take m sched) with (take n sched ++ drop n (take m sched)) in Hz.
  2: { rewrite <-(take_drop n (take m sched)) at 2. f_equal. rewrite take_take. f_equal. lia. }
  rewrite lsys_run_app, Hy in Hz. by eexists.
Qed.

Lemma run_before sh scripts s0 sched n m y : lsys_run sh (take m sched) (lbegin scripts s0) = Some y -> n <= m ->
  exists z, lsys_run sh (take n sched) (lbegin scripts s0) = Some z.
Proof.
  intros Hy Hle. replace (take m sched) with (take n sched ++ drop n (take m sched)) in Hy.
  2: { rewrite <-(take_drop n (take m sched)) at 2. f_equal. rewrite take_take. f_equal. lia. }
  rewrite lsys_run_app in Hy. destruct (lsys_run sh (take n sched) _) as [z|]; [|done]. by exists z.
Qed.

Lemma target_needs sh p k : target p = Some k -> needs sh p = Some (KeyLock (key_shard sh k), true).
Proof. destruct p; cbn; try done; by intros [= ->]. Qed.

Lemma target_none sh p k : target p = None -> holding sh (TGuard p) <> Some (KeyLock (key_shard sh k), true).
Proof. by destruct p. Qed.

Section one.
  Context (sh : shards) (scripts : list (list call)) (s0 : store) (sched : list (nat * list value)).
  Context (b : nat * nat) (c : call).
  (** What is known of the rest of the program at a time. *)
  Context (F : nat -> prog -> Prop).
  Hypothesis Hroom : room_for_all scripts s0.
  Hypothesis Hc : call_at scripts b = Some c.
  Notation M := (noticed sh scripts s0 sched b).
  Notation C := (replaced sh scripts s0 sched b).
  (** Among the changes that end later than [t], none ends by [n'] but what the call does from [n] to [n'],
      and that is to the key [k]. *)
  Definition only (t : nat) (k : bytes) (n n' : nat) : Prop :=
    forall l j j' p p', C l j j' p p' -> j' <= t \/ n' < j' \/ (j = n /\ j' = n' /\ (l = k \/ p' = p)).
  (** No change ends by the time [t]. *)
  Definition fresh (t : nat) : Prop := forall l j j' p p', C l j j' p p' -> t < j'.
  Hypothesis HFcontains : forall t k q n o, F t (PContains k q) -> t <= n -> M k n o -> only t k n n ->
    F n (q (match o with Some _ => true | None => false end)).
  Hypothesis HFget : forall t k q n o, F t (PGet k q) -> t <= n -> M k n o -> only t k n n -> F n (q o).
  Hypothesis HFinsert : forall t k v q n n' o, F t (PInsert k v q) -> t <= n -> C k n n' o (Some v) -> only t k n n' -> F n' q.
  Hypothesis HFremove : forall t k q n n' o, F t (PRemove k q) -> t <= n -> C k n n' o None -> only t k n n' -> F n' (q o).
  Hypothesis HFkoi : forall t k d u q n n' v, F t (PKoi k d u q) -> t <= n -> C k n n' (Some v) (Some (u v).1) -> only t k n n' -> F n' (q (u v).2).
  Hypothesis HFabsent : forall t k d u q n n', F t (PKoi k d u q) -> t <= n -> C k n n' None None -> only t k n n' -> F n' (PKoiIns k d u q).
  Hypothesis HFins : forall t k d u q n n' o, F t (PKoiIns k d u q) -> t <= n -> C k n n' o (Some d) -> only t k n n' -> F n' (PKoi k d u q).
  Hypothesis HFcounter : forall t m q v, F t (PCounter m q) -> F t (q v).
  Hypothesis HFincr : forall t d m q, F t (PIncr d m q) -> F t q.
  Hypothesis HR : forall t, fresh t -> F t (dispatch_prog (c_env c) (c_req c) (c_res c)).

  Notation at_ n := (lsys_run sh (take n sched) (lbegin scripts s0)).

  (** From the time [t] to the time [n] the call does not write. *)
  Definition quiet (t n : nat) : Prop :=
    forall m z k, t <= m -> m <= n -> at_ m = Some z -> ~ writing sh z b k.

  (** The call has had the shard of the key to itself since the key held [o], after [t] steps or more, and wrote
      nothing before, from the time [t] on.  The other keys of the shard are in [s] as they were. *)
  Definition since (t n : nat) (s : store) (k : bytes) (o : option value) : Prop :=
    exists n0 y, t <= n0 /\ n0 < n /\ at_ n0 = Some y /\ running y b /\ unlocked sh y k /\ st_keys y.2 !! k = o /\
      quiet t n0 /\ (forall m z, n0 < m -> m <= n -> at_ m = Some z -> writing sh z b k) /\
      forall l, l <> k -> key_shard sh l = key_shard sh k -> st_keys s !! l = st_keys y.2 !! l.

  Definition knows (n : nat) (s : store) (th : lthread) : Prop :=
    exists t, t <= n /\
    match th with
    | TIdle p => F t p /\ quiet t n
    | TGuard p => F t p /\ (forall k, target p = Some k -> since t n s k (st_keys s !! k)) /\ (target p = None -> quiet t n)
    | TUpdate p v _ => F t p /\ exists k d u q, p = PKoi k d u q /\ since t n s k (Some v)
    | Locks.TDone p g =>
      (F t p /\ (forall k, g <> (KeyLock (key_shard sh k), true)) /\ quiet t n) \/
      exists k o, g = (KeyLock (key_shard sh k), true) /\ since t n s k o /\
        forall n0 n', t <= n0 -> n0 < n' -> C k n0 n' o (st_keys s !! k) -> only t k n0 n' -> F n' p
    end.

  Definition followed (n : nat) (x : lsystem) : Prop :=
    forall cl, x.1 !! b.1 = Some cl ->
    (exists sc, scripts !! b.1 = Some sc /\ lc_todo cl = drop (lbegun cl) sc) /\
    (length (lc_done cl) = b.2 -> forall t, lc_now cl = Some t -> knows n x.2 t) /\
    (forall r, lc_done cl !! b.2 = Some r -> exists t, t <= n /\ F t (PRet r) /\ quiet t n).

  Lemma since_on t n s s' x1 k o cl : since t n s k o -> at_ (S n) = Some x1 -> x1.1 !! b.1 = Some cl ->
    length (lc_done cl) = b.2 -> holding sh (lc_thread cl) = Some (KeyLock (key_shard sh k), true) ->
    (forall l, l <> k -> key_shard sh l = key_shard sh k -> st_keys s' !! l = st_keys s !! l) -> since t (S n) s' k o.
  Proof.
    intros (n0 & y & Hge & Hlt & Hy & Hr & Hu & Ho & Hq & Hm & Hel) Hx1 Hcl Hd Hh Hs. exists n0, y. split_and!; try done; [lia| |].
    - intros m z H1 H2 Hz. destruct (decide (m = S n)) as [->|Hne]; [|apply (Hm m); [lia|lia|done]].
      assert (z = x1) as -> by congruence. by exists cl.
    - intros l Hl E. rewrite (Hs l Hl E). by apply Hel.
  Qed.

  Lemma quiet_on t n x1 : quiet t n -> at_ (S n) = Some x1 ->
    (forall cl, x1.1 !! b.1 = Some cl -> length (lc_done cl) = b.2 ->
       forall k, holding sh (lc_thread cl) <> Some (KeyLock (key_shard sh k), true)) -> quiet t (S n).
  Proof.
    intros Hq Hx1 Hno m z k H1 H2 Hz. destruct (decide (m = S n)) as [->|Hne]; [|by apply (Hq m); [|lia|]].
    assert (z = x1) as -> by congruence. intros (cl & Hcl & Hd & Hh). by apply (Hno cl Hcl Hd k).
  Qed.

  Lemma changing l j j' p p' : C l j j' p p' -> exists z, at_ (j' - 1) = Some z /\ writing sh z b l.
  Proof.
    intros (H1 & _ & (H2 & y & Hy & _) & Hw). destruct (run_before _ _ _ _ (j' - 1) _ _ Hy) as [z Hz]; [lia|].
    exists z. split; [done|]. apply (Hw (j' - 1)); [lia|lia|done].
  Qed.

  Lemma quiet_only t k n : quiet t n -> only t k n n.
  Proof.
    intros Hq l j j' p p' Hcc. destruct (le_lt_dec j' t); [by left|]. destruct (le_lt_dec j' n); [|by right; left].
    destruct (changing _ _ _ _ _ Hcc) as (z & Hz & Hw). exfalso. apply (Hq (j' - 1) z l); [lia|lia|done|done].
  Qed.

  Lemma writing_shard z k l : writing sh z b k -> writing sh z b l -> key_shard sh l = key_shard sh k.
  Proof. intros (cl & H1 & _ & H2) (cl' & H3 & _ & H4). assert (cl' = cl) as -> by congruence. congruence. Qed.

  Lemma writing_locked z k l : writing sh z b k -> key_shard sh l = key_shard sh k -> unlocked sh z l -> False.
  Proof.
    intros (cl & H1 & _ & H2) E Hu. apply (Hu cl); [by eapply elem_of_list_lookup_2|]. by rewrite E.
  Qed.

  Lemma since_only t n k n0 y0 x1 : t <= n0 -> n0 < n -> quiet t n0 ->
    (forall m z, n0 < m -> m <= n -> at_ m = Some z -> writing sh z b k) ->
    at_ n0 = Some y0 -> at_ (S n) = Some x1 ->
    (forall l, l <> k -> key_shard sh l = key_shard sh k -> st_keys x1.2 !! l = st_keys y0.2 !! l) -> only t k n0 (S n).
  Proof.
    intros Ht Hlt Hq Hm Hy0 Hx1 Hel l j j' p p' Hcc. destruct (le_lt_dec j' t); [by left|]. destruct (le_lt_dec j' (S n)) as [Hle|]; [|by right; left].
    destruct (changing _ _ _ _ _ Hcc) as (z & Hz & Hw). right. right.
    assert (n0 < j' - 1). { destruct (le_lt_dec (j' - 1) n0); [|done]. exfalso. apply (Hq (j' - 1) z l); [lia|lia|done|done]. }
    assert (E : key_shard sh l = key_shard sh k) by (eapply writing_shard; [apply (Hm (j' - 1)); [lia|lia|done]|done]).
    destruct Hcc as (Hjj & (_ & y & Hy & _ & Hu & Hp) & (_ & y' & Hy' & _ & Hu' & Hp') & Hww).
    assert (Ej : j = n0 /\ j' = S n).
    2: { destruct Ej as [-> ->]. split_and!; [done|done|]. destruct (decide (l = k)) as [|Hne]; [by left|right].
      assert (y = y0) as -> by congruence. assert (y' = x1) as -> by congruence. rewrite <-Hp, <-Hp'. by apply Hel. }
    split.
    - destruct (decide (j = n0)) as [|Hne]; [done|]. exfalso. destruct (le_lt_dec j n0).
      + destruct (run_before _ _ _ _ n0 _ _ Hz) as [z0 Hz0]; [lia|]. apply (Hq n0 z0 l); [lia|lia|done|]. apply (Hww n0); [lia|lia|done].
      + apply (writing_locked y k l); [apply (Hm j); [lia|lia|done]|done|done].
    - destruct (decide (j' = S n)) as [|Hne]; [done|]. exfalso.
      eapply (writing_locked y' k l); [apply (Hm j'); [lia|lia|done]|done|done].
  Qed.

  Lemma fresh_start n x cl : at_ n = Some x -> x.1 !! b.1 = Some cl -> length (lc_done cl) = b.2 -> lc_now cl = None -> fresh (S n).
  Proof.
    intros Hx Hcl Hd Hnow l j j' p p' Hcc. destruct (le_lt_dec j' (S n)) as [Hle|]; [|done]. exfalso.
    destruct (changing _ _ _ _ _ Hcc) as (z & Hz & (cl1 & Hcl1 & Hd1 & Hh)).
    destruct (run_between _ _ _ _ (j' - 1) n _ x Hz) as [m Hrun]; [lia|done|].
    destruct (run_grows _ _ _ _ _ _ Hrun Hcl1) as (cl2 & Hcl2 & _ & Hb). assert (cl2 = cl) as -> by congruence.
    unfold lbegun in Hb. rewrite Hnow in Hb. unfold lc_thread in Hh. destruct (lc_now cl1) as [th|]; [lia|done].
  Qed.

  (** What the others do does not matter. *)
  Lemma knows_on n s s' t x1 cl : at_ (S n) = Some x1 -> x1.1 !! b.1 = Some cl -> length (lc_done cl) = b.2 -> lc_now cl = Some t ->
    (forall k, holding sh t = Some (KeyLock (key_shard sh k), true) -> st_keys s' !! k = st_keys s !! k) ->
    knows n s t -> knows (S n) s' t.
  Proof.
    intros Hx1 Hcl Hdn Hnow Hsame. assert (Ht : lc_thread cl = t) by (unfold lc_thread; by rewrite Hnow).
    intros (t0 & Ht0 & H). exists t0. split; [lia|]. revert H.
    destruct t as [p|p|p v mi|p g]; cbn.
    - intros [H1 H2]. split; [done|]. eapply quiet_on; [done|done|]. intros cl' Hcl' _ k.
      assert (cl' = cl) as -> by congruence. by rewrite Ht.
    - intros (H1 & H2 & H3). split; [done|]. split.
      + intros k Hk. rewrite Hsame by (by apply target_needs).
        eapply since_on; [by apply H2|done|done|done|rewrite Ht; by apply target_needs|].
        intros l _ E. apply Hsame. rewrite E. by apply target_needs.
      + intros Hn. eapply quiet_on; [by apply H3|done|]. intros cl' Hcl' _ k.
        assert (cl' = cl) as -> by congruence. rewrite Ht. by apply target_none.
    - intros [H1 (k & d & u & q & -> & H2)]. split; [done|]. exists k, d, u, q. split; [done|].
      eapply since_on; [done|done|done|done|by rewrite Ht|]. intros l _ E. apply Hsame. by cbn; rewrite E.
    - intros [(H1 & H2 & H3)|(k & o & -> & H1 & H2)].
      { left. split_and!; [done|done|]. eapply quiet_on; [done|done|]. intros cl' Hcl' _ k.
        assert (cl' = cl) as -> by congruence. rewrite Ht. cbn. intros [= E]. by apply (H2 k). }
      right. exists k, o. split; [done|]. split.
      + eapply since_on; [done|done|done|done|by rewrite Ht|]. intros l _ E. apply Hsame. by cbn; rewrite E.
      + by rewrite (Hsame k eq_refl).
  Qed.

  Lemma followed_step n x x1 i mid : S n <= length sched -> at_ n = Some x -> at_ (S n) = Some x1 ->
    lsys_step sh i mid x = Some x1 -> followed n x -> followed (S n) x1.
  Proof.
    intros Hn Hx Hx1 Hs Hh.
    destruct (lsys_run_sim _ _ _ _ _ Hx) as (ps & f & _ & _ & _ & Hsim).
    destruct (Hsim (length (take n sched)) x) as (y & Hy & Hinv); [done|by rewrite firstn_all|]. clear Hsim.
    destruct x as [lcs s]. unfold lsys_step in Hs. cbn [fst snd] in Hs.
    destruct (lcs !! i) as [cl|] eqn:Hcl; [|done].
    pose proof (lookup_lt_Some _ _ _ Hcl) as Hlt.
    assert (Hstill : forall cl', x1.1 !! b.1 = Some cl' ->
      (forall r, lc_done cl' !! b.2 = Some r -> exists t, t <= n /\ F t (PRet r) /\ quiet t n) ->
      forall r, lc_done cl' !! b.2 = Some r -> exists t, t <= S n /\ F t (PRet r) /\ quiet t (S n)).
    { intros cl' Hcl' H r Hr. destruct (H r Hr) as (t & Ht & Hf & Hq). exists t. split_and!; [lia|done|].
      eapply quiet_on; [done|done|]. intros cl0 Hcl0 Hd. assert (cl0 = cl') as -> by congruence.
      apply lookup_lt_Some in Hr. lia. }
    assert (Hgo : forall cl' s', x1 = (<[i := cl']> lcs, s') ->
      (i <> b.1 -> forall cl0 k, lcs !! b.1 = Some cl0 -> holding sh (lc_thread cl0) = Some (KeyLock (key_shard sh k), true) ->
         st_keys s' !! k = st_keys s !! k) ->
      (i = b.1 ->
      (exists sc, scripts !! b.1 = Some sc /\ lc_todo cl' = drop (lbegun cl') sc) /\
      (length (lc_done cl') = b.2 -> forall t, lc_now cl' = Some t -> knows (S n) s' t) /\
      (forall r, lc_done cl' !! b.2 = Some r -> exists t, t <= S n /\ F t (PRet r) /\ quiet t (S n))) -> followed (S n) x1).
    { intros cl' s' E Ho H cl0 H0. rewrite E in H0. cbn [fst] in H0. destruct (decide (i = b.1)) as [Ei|Hne].
      - rewrite <-Ei, list_lookup_insert in H0 by done. injection H0 as <-. rewrite E. by apply H.
      - pose proof H0 as H0'. rewrite list_lookup_insert_ne in H0 by done. destruct (Hh cl0 H0) as (H1 & H2 & H3).
        split; [done|]. split; [|apply (Hstill cl0); [by rewrite E|done]]. intros Ed t Ht. rewrite E. cbn [snd].
        eapply (knows_on n s s' t x1 cl0 Hx1); [by rewrite E|done|done| |by apply H2].
        intros k Hk. eapply Ho; [done|done|]. unfold lc_thread. by rewrite Ht. }
    destruct (lc_now cl) as [t|] eqn:Hnow.
    2: { destruct (lc_todo cl) as [|d rest] eqn:Htodo; [done|]. injection Hs as Hs. symmetry in Hs. eapply Hgo; [done|done|]. intros ->.
      destruct (Hh cl Hcl) as ((sc & Hsc & Hd) & _ & Hr). unfold lbegun in Hd. rewrite Hnow, Nat.add_0_r, Htodo in Hd.
      symmetry in Hd. assert (Hat : sc !! length (lc_done cl) = Some d).
      { pose proof (lookup_drop sc (length (lc_done cl)) 0) as E. rewrite Hd in E. cbn in E. by rewrite Nat.add_0_r in E. }
      split; [|split; [|apply (Hstill _); [rewrite Hs; cbn [fst]; by apply list_lookup_insert|exact Hr]]].
      - exists sc. split; [done|]. unfold lbegun. cbn [lc_done lc_now lc_todo].
        rewrite (drop_S _ d) in Hd by done. injection Hd as Hd. rewrite <-Hd. f_equal. lia.
      - cbn [lc_done lc_now]. intros E t [= <-]. exists (S n). split; [lia|].
        assert (d = c) as -> by (unfold call_at in Hc; rewrite Hsc in Hc; cbn in Hc; rewrite <-E in Hc; congruence).
        split; [apply HR; by eapply fresh_start|]. intros m z k0 H1 H2 Hz (cl1 & Hcl1 & _ & Hh1). assert (m = S n) as -> by lia. assert (z = x1) as -> by congruence.
        rewrite Hs in Hcl1. cbn [fst] in Hcl1. rewrite list_lookup_insert in Hcl1 by done. injection Hcl1 as <-. done. }
    assert (Hrun : i = b.1 -> length (lc_done cl) = b.2 -> running (lcs, s) b).
    { intros -> E. exists cl. cbn [fst]. by rewrite Hnow. }
    assert (Hlook : i = b.1 -> length (lc_done cl) = b.2 -> forall k, unlocked sh (lcs, s) k -> M k n (st_keys s !! k)).
    { intros Ei E k Hu. split; [lia|]. exists (lcs, s). split_and!; [done|by apply Hrun|done|done]. }
    assert (Hret : (exists r, t = TIdle (PRet r)) \/ forall r, t <> TIdle (PRet r)).
    { destruct t as [[]| | |]; try (right; done). left. by eexists. }
    destruct Hret as [[r ->]|Hnr].
    - injection Hs as Hs. symmetry in Hs. eapply Hgo; [done|done|]. intros ->. destruct (Hh cl Hcl) as ((sc & Hsc & Hd) & Hl & Hr). split; [|split].
      + exists sc. split; [done|]. unfold lbegun in *. rewrite Hnow in Hd. cbn [lc_done lc_now lc_todo].
        rewrite Hd, app_length. cbn. by rewrite Nat.add_0_r.
      + done.
      + apply (Hstill _); [rewrite Hs; cbn [fst]; by apply list_lookup_insert|].
        cbn [lc_done]. intros r' H. apply lookup_app_Some in H as [H|[Hle H]]; [by apply Hr|].
        apply list_lookup_singleton_Some in H as [H <-].
        assert (E : length (lc_done cl) = b.2) by lia. destruct (Hl E _ Hnow) as (t0 & Ht0 & H0 & H1). by exists t0.
    - assert (Hs' : (forall p k, t = TIdle p -> target p = Some k -> unlocked sh (lcs, s) k) /\
         match lact sh t s mid with
           | Some (t', s) => Some (<[i := LClient (lc_done cl) (Some t') (lc_todo cl)]> lcs, s)
           | None => None end = Some x1).
      { destruct t as [[r| | | | | | | |]| | |]; try (by destruct (Hnr r)); (split; [|
          match type of Hs with (if ?c then _ else _) = _ => destruct c; [exact Hs|done] | _ => exact Hs end]);
          intros p0 k0; try done; intros [= <-]; cbn [target]; try done; intros [= <-]; cbn [needs] in Hs;
          match type of Hs with (if ?c then _ else _) = _ => destruct c eqn:Ef; [|done] end; by apply free_unlocked. }
      clear Hs. destruct Hs' as [Hfree Hs']. destruct (lact sh t s mid) as [[t' s']|] eqn:Ha; [|done].
      injection Hs' as Hs'. symmetry in Hs'.
      assert (Hthr : lc_thread cl = t) by (unfold lc_thread; by rewrite Hnow).
      eapply Hgo; [done| |].
      { intros Hne cl0 k Hcl0 Hh0. eapply lact_elsewhere; [done|]. rewrite <-Hthr.
        eapply (excl_write sh (lcs, s) y b.1 i cl0 cl k Hinv); [congruence|done|done|done]. }
      intros ->.
      destruct (Hh cl Hcl) as ((sc & Hsc & Hd) & Hl & Hr). split; [|split].
      + exists sc. split; [done|]. unfold lbegun in *. by rewrite Hnow in Hd.
      + cbn [lc_done lc_now]. intros E t0 [= <-]. specialize (Hl E _ Hnow).
        specialize (Hrun eq_refl E). specialize (Hlook eq_refl E).
        assert (Hcl1 : x1.1 !! b.1 = Some (LClient (lc_done cl) (Some t') (lc_todo cl))).
        { rewrite Hs'. cbn [fst]. by rewrite list_lookup_insert. }
        destruct Hl as (t0 & Ht0 & Hl).
        assert (Hcalm : forall t1, quiet t1 n -> (forall k, holding sh t' <> Some (KeyLock (key_shard sh k), true)) -> quiet t1 (S n)).
        { intros t1 Hq Hno. eapply quiet_on; [done|done|]. intros cl1 Hcl1' _.
          rewrite Hcl1 in Hcl1'. injection Hcl1' as <-. exact Hno. }
        assert (Hshift : forall t1, t1 <= n -> quiet t1 n -> quiet n n).
        { intros t1 Hle Hq m z k0 H1 H2. apply Hq; lia. }
        assert (Hkeep : forall k o, since t0 n s k o -> holding sh t' = Some (KeyLock (key_shard sh k), true) ->
          (forall l, l <> k -> key_shard sh l = key_shard sh k -> st_keys s' !! l = st_keys s !! l) -> since t0 (S n) s' k o).
        { intros k o Hsi Hh' Hel. by eapply since_on. }
        destruct t as [p|p|p v mi|p g].
        * cbn in Ha. destruct (needs sh p); [|done]. injection Ha as <- <-. exists t0. split; [lia|]. destruct Hl as [Hl Hq]. split; [done|].
          split; [|intros Hn0; apply Hcalm; [done|intros k; by apply target_none]]. intros k Hk.
          exists n, (lcs, s). split_and!; [lia|lia|done|done|by eapply Hfree|done|done| |done].
          intros m z H1 H2 Hz. assert (m = S n) as -> by lia. assert (z = x1) as -> by congruence.
          eexists. split; [exact Hcl1|]. split; [done|]. cbn. by apply target_needs.
        * destruct Hl as (Hl & Hsi & Hqu). cbn [lact] in Ha.
          destruct p as [r|k q|k q|k v q|k q|k d u q|k d u q|m q|d m q]; try done.
          -- cbn in Ha. injection Ha as <- <-. exists n. split; [lia|]. left. split; [|split; [done|apply Hcalm; [by apply (Hshift t0), Hqu|done]]]. eapply HFcontains; [exact Hl|done| |by apply quiet_only, Hqu]. apply Hlook.
             eapply (guard_unlocked sh _ _ b.1 cl _ k false Hinv); [done|done|done|done].
          -- cbn in Ha. injection Ha as <- <-. exists n. split; [lia|]. left. split; [|split; [done|apply Hcalm; [by apply (Hshift t0), Hqu|done]]]. eapply HFget; [exact Hl|done| |by apply quiet_only, Hqu]. apply Hlook.
             eapply (guard_unlocked sh _ _ b.1 cl _ k false Hinv); [done|done|done|done].
          -- cbn in Ha. injection Ha as <- <-. exists t0. split; [lia|]. right. exists k, (st_keys s !! k). split; [done|].
             split; [apply Hkeep; [by apply Hsi|done|intros l0 Hl0 _; unfold with_keys; cbn [st_keys snd]; by rewrite lookup_insert_ne]|]. unfold with_keys; cbn [st_keys snd]. rewrite lookup_insert.
             intros n0 n' H1 H2. by eapply HFinsert.
          -- cbn in Ha. injection Ha as <- <-. exists t0. split; [lia|]. right. exists k, (st_keys s !! k). split; [done|].
             split; [apply Hkeep; [by apply Hsi|done|intros l0 Hl0 _; unfold with_keys; cbn [st_keys snd]; by rewrite lookup_delete_ne]|]. unfold with_keys; cbn [st_keys snd]. rewrite lookup_delete.
             intros n0 n' H1 H2. by eapply HFremove.
          -- cbn in Ha. exists t0. split; [lia|]. destruct (st_keys s !! k) as [v|] eqn:Ev.
             ++ injection Ha as <- <-. split; [done|]. exists k, d, u, q. split; [done|]. apply Hkeep; [|done|done].
                rewrite <-Ev. by apply Hsi.
             ++ injection Ha as <- <-. right. exists k, None. split; [done|].
                split; [apply Hkeep; [rewrite <-Ev; by apply Hsi|done|done]|]. rewrite Ev. intros n0 n' H1 H2. by eapply HFabsent.
          -- cbn in Ha. injection Ha as <- <-. exists t0. split; [lia|]. right. exists k, (st_keys s !! k). split; [done|].
             split; [apply Hkeep; [by apply Hsi|done|intros l0 Hl0 _; unfold with_keys; cbn [st_keys snd]; by rewrite lookup_insert_ne]|]. unfold with_keys; cbn [st_keys snd]. rewrite lookup_insert.
             intros n0 n' H1 H2. by eapply HFins.
          -- cbn in Ha. injection Ha as <- <-. exists t0. split; [lia|]. left. split; [|split; [done|apply Hcalm; [by apply Hqu|done]]]. by eapply HFcounter.
          -- cbn in Ha. assert (Hrm : forall m, (count y.2 m + 1 < u64_mod)%N).
             { destruct Hinv as [Hy1 _]. cbn [fst] in Hy1.
               eapply (incr_room scripts s0 _ y b.1 (eclient cl) d m q Hroom Hy); [rewrite Hy1; by apply map_lookup|].
               unfold eclient. cbn. by rewrite Hnow. }
             rewrite counters_inc_at in Ha.
             2: { destruct Hinv as [_ Hinv]. pose proof (li_counters _ _ _ _ _ Hinv) as Hcs. cbn [snd] in Hcs.
               specialize (Hrm m). unfold count in Hrm. by rewrite <-Hcs in Hrm. }
             injection Ha as <- <-. exists t0. split; [lia|]. left. split; [by eapply HFincr|split; [done|apply Hcalm; [by apply Hqu|done]]].
        * destruct Hl as [Hl (k & d & u & q & -> & Hsi)]. exists t0. split; [lia|].
          cbn [lact] in Ha. destruct mi as [|w mi].
          -- destruct (u v) as [v' r] eqn:Eu. injection Ha as <- <-. right. exists k, (Some v). split; [done|].
             split; [apply Hkeep; [done|done|intros l0 Hl0 _; unfold with_keys; cbn [st_keys snd]; by rewrite lookup_insert_ne]|]. unfold with_keys; cbn [st_keys snd]. rewrite lookup_insert.
             intros n0 n' H1 H2 Hcc. pose proof (HFkoi t0 k d u q n0 n' v Hl H1) as Hq. rewrite Eu in Hq. by apply Hq.
          -- injection Ha as <- <-. split; [done|]. exists k, d, u, q. split; [done|]. apply Hkeep; [done|done|]. intros l0 Hl0 _. unfold with_keys; cbn [st_keys snd]. by rewrite lookup_insert_ne.
        * cbn in Ha. injection Ha as <- <-.
          destruct Hl as [(Hl & _ & Hq)|(k & o & -> & (n0 & y0 & Hge0 & Hlt0 & Hy0 & Hr0 & Hu0 & Ho0 & Hq0 & Hm0 & Hel0) & Hl)];
            [exists t0; split; [lia|]; split; [done|by apply Hcalm]|].
          exists (S n). split; [done|]. split.
          2:{ intros m z k0 H1 H2 Hz (cl1 & Hcl1' & _ & Hh1). assert (m = S n) as -> by lia. assert (z = x1) as -> by congruence.
            rewrite Hcl1 in Hcl1'. injection Hcl1' as <-. done. }
          eapply (Hl n0); [done|lia| |eapply since_only; [done|done|done|done|exact Hy0|exact Hx1|rewrite Hs'; exact Hel0]]. split_and!; [lia| | |].
          -- split; [lia|]. by exists y0.
          -- split; [done|]. exists x1. split_and!; [done| | |by rewrite Hs'].
             { exists (LClient (lc_done cl) (Some (TIdle p)) (lc_todo cl)). done. }
             intros cl' Hcl' Hh'. apply elem_of_list_lookup_1 in Hcl' as [j Hj].
             destruct (decide (j = b.1)) as [->|Hne].
             { assert (cl' = LClient (lc_done cl) (Some (TIdle p)) (lc_todo cl)) as -> by congruence. done. }
             rewrite Hs' in Hj. cbn [fst] in Hj. rewrite list_lookup_insert_ne in Hj by done.
             eapply (excl_write sh (lcs, s) y b.1 j cl cl' k Hinv); [congruence|done|done|by rewrite Hthr|done].
          -- intros m z H1 H2. apply Hm0; [done|lia].
      + apply (Hstill _); [rewrite Hs'; cbn [fst]; by apply list_lookup_insert|exact Hr].
  Qed.

  Lemma followed_run n x : n <= length sched -> at_ n = Some x -> followed n x.
  Proof.
    revert x. induction n as [|n IH]; intros x Hn Hx.
    - cbn in Hx. injection Hx as <-. intros cl Hcl. cbn in Hcl.
      change (map ?f scripts) with (f <$> scripts) in Hcl. apply list_lookup_fmap_inv in Hcl as (sc & -> & Hsc).
      cbn. split; [by exists sc|]. split; [done|]. intros r Hr. by rewrite lookup_nil in Hr.
    - destruct (lookup_lt_is_Some_2 sched n) as [[i mid] Him]; [lia|]. pose proof Hx as Hx1.
      rewrite (take_S_r _ _ _ Him), lsys_run_app in Hx.
      destruct (at_ n) as [z|] eqn:Hz; [|done]. cbn in Hx.
      destruct (lsys_step sh i mid z) as [z1|] eqn:Hs; [|done]. injection Hx as ->.
      eapply (followed_step n z); [done|done|done|done|]. apply IH; [lia|done].
  Qed.
End one.

(** The call changed no key after the time [t]. *)
Definition no_more (sh : shards) (scripts : list (list call)) (s0 : store) (sched : list (nat * list value)) (b : nat * nat) (t : nat) : Prop :=
  forall k m m' p p', replaced sh scripts s0 sched b k m m' p p' -> m' <= t.

Lemma finds_run (M : bytes -> nat -> option value -> Prop)
  (C : bytes -> nat -> nat -> option value -> option value -> Prop) (R : nat -> cres -> Prop) sh scripts s0 sched x b c r :
  room_for_all scripts s0 -> call_at scripts b = Some c ->
  (forall k n o, noticed sh scripts s0 sched b k n o -> M k n o) ->
  (forall k n n' o o', replaced sh scripts s0 sched b k n n' o o' -> C k n n' o o') ->
  (forall t, finds M C R t (command_prog (c_env c) (c_req c) (c_res c))) ->
  lsys_run sh sched (lbegin scripts s0) = Some x -> lreturned x b r ->
  exists t, R t r /\ no_more sh scripts s0 sched b t.
Proof.
  intros Hroom Hc HM HC HR Hx (cl & Hcl & Hr).
  assert (Hf : followed sh scripts s0 sched b (finds M C R) (length sched) x).
  { eapply (followed_run sh scripts s0 sched b c (finds M C R) Hroom Hc);
      [..|done|by rewrite firstn_all].
    - intros t k q n o H1 H2 H3 _. by apply H1, HM.
    - intros t k q n o H1 H2 H3 _. by apply H1, HM.
    - intros t k v q n n' o H1 H2 H3 _. eapply H1; [done|]. by apply HC.
    - intros t k q n n' o H1 H2 H3 _. eapply H1; [done|]. by apply HC.
    - intros t k d u q n n' v H1 H2 H3 _. eapply H1; [done|]. by apply HC.
    - intros t k d u q n n' H1 H2 [H3 _] _ m m' v Hm Hcc. eapply H1; [|done]. lia.
    - intros t k d u q n n' o H1 H2 [H3 _] _ m m' v Hm Hcc. eapply H1; [|done]. lia.
    - intros t m q v H1. apply H1.
    - done.
    - intros t _. by apply finds_dispatch. }
  destruct (Hf cl Hcl) as (_ & _ & H). destruct (H r Hr) as (t & _ & HRt & Hq). exists t. split; [done|].
  intros k m m' p p' (Hm & _ & (Hm' & _) & Hw). destruct (le_lt_dec m' t) as [|Hlt]; [done|]. exfalso.
  destruct (MemLin.lsys_run_take _ _ _ _ _ (m' - 1) Hx) as [z Hz]. apply (Hq (m' - 1) z k); [lia|lia|done|].
  apply (Hw (m' - 1)); [lia|lia|done].
Qed.

(** ** Commands that change one key *)

Lemma just_room k o : room (just k o).
Proof. intros m. unfold count, just. cbn [st_counters]. rewrite lookup_empty. cbn. lia. Qed.

Lemma just_at k o : st_keys (just k o) !! k = o.
Proof. destruct o; cbn; [by rewrite lookup_singleton|done]. Qed.

Lemma ordinary_guarded e k p : ordinary k -> guarded e k p = p.
Proof.
  intros Hk. unfold guarded. pose proof (ordinary_ok (debug e) k Hk) as Hb. rewrite bad_key_guard in Hb.
  destruct (starts_with k reserved_prefix); [done|]. by destruct (debug e && _).
Qed.

(** What a Set of one type does with the key: it refuses, or it removes and then overwrites. *)
Definition set_shape (e : env) (res k : bytes) (t : key_type) (p : prog) : Prop :=
  (exists r, p = PRet r) \/
  exists d u, p = PRemove k (fun _ => key_or_insert_with e k d u) /\
    (forall v, kind v = t -> (u v).2 = (u d).2 /\ ((u v).2 <> CPanic -> (u v).1 = (u d).1)) /\
    (forall v, kind v <> t -> (u v).2 = CErr EKeyTypeDifferent res).

Lemma set_with_shape {A} e res k d (as_ : value -> option A) new kept out t :
  (forall v, is_Some (as_ v) <-> kind v = t) -> kind d = t ->
  set_shape e res k t (set_with e res k d as_ new kept out).
Proof.
  intros Has Hd. right. eexists d, _. split; [reflexivity|]. cbv beta. unfold with_variant.
  destruct (proj2 (Has d) Hd) as [a0 ->]. split.
  - intros v Hv. destruct (proj2 (Has v) Hv) as [a ->]. by destruct out.
  - intros v Hv. destruct (as_ v) as [a|] eqn:E; [|done]. destruct Hv. apply Has. by rewrite E.
Qed.

Lemma set_typed_shape e req res k t : set_shape e res k t (Commands.set_typed e req res k t).
Proof.
  unfold Commands.set_typed.
  destruct t;
    match goal with |- set_shape _ _ _ _ (match ?x with Some _ => _ | None => _ end) => destruct x; [|left; by eexists] end;
    (apply set_with_shape; [|done]); intros []; cbn; (split; [by intros [? ?]|]); try done; intros _; by eexists.
Qed.

Lemma c124_one sh scripts s0 sched x b c k r :
  room_for_all scripts s0 -> lsys_run sh sched (lbegin scripts s0) = Some x -> call_at scripts b = Some c ->
  changes_one (r_command (c_req c)) -> arg (c_req c) 0 = Some k -> ordinary k -> lreturned x b r ->
  told_writer sh scripts s0 sched b c k r.
Proof.
  intros Hroom Hx Hc Hcmd Hk Hord Hr.
  set (M := noticed sh scripts s0 sched b). set (C := replaced sh scripts s0 sched b).
  set (T := fun t r => no_more sh scripts s0 sched b t -> told_writer sh scripts s0 sched b c k r).
  enough (Hall : forall t, finds M C T t (command_prog (c_env c) (c_req c) (c_res c))).
  { destruct (finds_run M C T sh scripts s0 sched x b c r Hroom Hc) as (t & H1 & H2); [done|done|done|done|done|]. by apply H1. }
  intros t0.
  assert (HCM : forall k n n' o o', C k n n' o o' -> M k n o) by (by intros k' n n' o o' (_ & H & _)).
  assert (HCA : forall n n' o o', C k n n' o o' -> no_more sh scripts s0 sched b n' -> acted sh scripts s0 sched b k o o').
  { intros n n' o o' H Hno. exists n'. split; [by apply Hno|]. left. by exists n. }
  assert (HMA : forall n o, M k n o -> no_more sh scripts s0 sched b n -> acted sh scripts s0 sched b k o o).
  { intros n o H Hno. exists n. split; [by apply Hno|]. by right. }
  assert (Hkey : key (c_req c) = Some k).
  { unfold key. by destruct Hcmd as [->|[->|[->|[->|[->|[->| ->]]]]]]. }
  assert (Halone : forall o o', acted sh scripts s0 sched b k o o' ->
    let out := run (command_prog (c_env c) (c_req c) (c_res c)) (just k o) in
    (out.2 <> CPanic -> st_keys out.1 !! k = o') -> told_writer sh scripts s0 sched b c k out.2).
  { intros o o' Ha out Ho. left. exists o, o'. split; [done|]. cbn zeta.
    destruct (dispatch_cmd (c_env c) (just k o) (c_req c) (c_res c) (just_room _ _)) as [-> ->].
    split; [done|]. intros H. symmetry. by apply Ho. }
  assert (Hany : forall r, command_prog (c_env c) (c_req c) (c_res c) = PRet r ->
    told_writer sh scripts s0 sched b c k r).
  { intros r' E. right. right. intros s Hs. cbn zeta. destruct (dispatch_cmd (c_env c) s (c_req c) (c_res c) Hs) as [-> ->].
    by rewrite E. }
  assert (Hkoi : forall d u, command_prog (c_env c) (c_req c) (c_res c) = key_or_insert_with (c_env c) k d u ->
    finds M C T t0 (command_prog (c_env c) (c_req c) (c_res c))).
  { intros d u E. unfold key_or_insert_with in E. rewrite (ordinary_guarded _ _ _ Hord) in E. rewrite E. cbn. intros n n' v _ Hv Hno.
    specialize (Halone (Some v) (Some (u v).1) (HCA _ _ _ _ Hv Hno)). cbn zeta in Halone. rewrite E in Halone. cbn in Halone.
    rewrite lookup_singleton in Halone. cbn in Halone. destruct (u v) as [v' r']. cbn in *.
    apply Halone. intros _. unfold with_keys. cbn [st_keys]. by rewrite lookup_insert. }
  destruct Hcmd as [E|[E|[E|[E|[E|[E|E]]]]]]; unfold command_prog in Halone, Hany, Hkoi |- *; rewrite E in Halone, Hany, Hkoi |- *.
  - unfold cmd_increment in *. rewrite Hkey in *. destruct (wants_float (c_req c)); by eapply Hkoi.
  - unfold cmd_decrement in *. rewrite Hkey in *. destruct (wants_float (c_req c)); by eapply Hkoi.
  - unfold cmd_increment_by in *. rewrite Hkey in *.
    destruct (typed_arg convert_i64 (c_req c) 1); [by eapply Hkoi|].
    destruct (typed_arg convert_f64 (c_req c) 1); [by eapply Hkoi|]. cbn. intros _. by apply Hany.
  - unfold cmd_decrement_by in *. rewrite Hkey in *.
    destruct (typed_arg convert_i64 (c_req c) 1).
    { destruct (i64_checked _ _); [by eapply Hkoi|]. cbn. intros _. by apply Hany. }
    destruct (typed_arg convert_f64 (c_req c) 1); [by eapply Hkoi|]. cbn. intros _. by apply Hany.
  - unfold cmd_delete in *. rewrite Hkey in *. destruct (r_key_type (c_req c)); [cbn; intros _; by apply Hany|].
    cbn. intros n n' o _ Ho. specialize (Halone o None). cbn [run] in Halone. rewrite just_at in Halone.
    unfold fail in *. destruct o as [v|]; cbn [run fst snd] in Halone; intros Hno; (apply Halone; [by eapply HCA|]); intros _;
      unfold with_keys; cbn [st_keys]; by rewrite lookup_delete.
  - unfold cmd_append in *. rewrite Hk in *. destruct (args_from (c_req c) 1) as [a|]; [|cbn; intros _; by apply Hany].
    unfold resolve_type in *. destruct (r_key_type (c_req c)) as [t|] eqn:Et.
    + destruct t; try (by eapply Hkoi); cbn; intros _; by apply Hany.
    + set (cont := fun t : key_type => match t with KTBytes => append_bytes (c_env c) a (c_res c) k
        | KTList => append_list (c_env c) a (c_res c) k | KTString => append_string (c_env c) a (c_res c) k
        | _ => fail (c_res c) EKeyTypeDifferent end) in *.
      assert (Hcont : forall t, (exists r, cont t = PRet r) \/ exists d u, cont t = PKoi k d u PRet /\
        forall v, kind v <> t -> (u v).2 = CErr EKeyTypeDifferent (c_res c)).
      { intros t. destruct t; try (left; by eexists); right;
          unfold cont, append_bytes, append_list, append_string, key_or_insert_with; rewrite (ordinary_guarded _ _ _ Hord);
          eexists _, _; (split; [reflexivity|]); by intros []. }
      assert (Erun : forall o, run (PGet k (fun v => cont (match v with Some v => kind v | None => KTBytes end))) (just k o) =
        run (cont (match o with Some v => kind v | None => KTBytes end)) (just k o)).
      { intros o. change (run (cont (match st_keys (just k o) !! k with Some v => kind v | None => KTBytes end)) (just k o) =
          run (cont (match o with Some v => kind v | None => KTBytes end)) (just k o)). by rewrite just_at. }
      cbn [finds]. intros n1 o1 _ Ho1.
      set (t1 := match o1 with Some v => kind v | None => KTBytes end).
      change (finds M C T n1 (cont t1)).
      destruct (Hcont t1) as [[r' Er]|(d & u & Er & Hdiff)]; rewrite Er; cbn.
      * intros Hno. specialize (Halone o1 o1 (HMA _ _ Ho1 Hno)). cbn zeta in Halone. rewrite Erun in Halone.
        fold t1 in Halone. rewrite Er in Halone. cbn [run fst snd] in Halone. apply Halone. intros _. apply just_at.
      * intros n n' v Hn Hv Hno. destruct (decide (kind v = t1)) as [Ev|Hne].
        -- specialize (Halone (Some v) (Some (u v).1) (HCA _ _ _ _ Hv Hno)). cbn zeta in Halone. rewrite Erun in Halone.
           rewrite Ev, Er in Halone. cbn [run] in Halone. rewrite just_at in Halone. cbn [from_option id] in Halone.
           destruct (u v) as [v' r']. cbn in Halone. apply Halone. intros _.
           unfold with_keys. cbn [st_keys]. by rewrite lookup_insert.
        -- right. left. rewrite (Hdiff v Hne). split; [done|]. exists n, v. split; [by eapply HCM|].
           rewrite Et. split; [by right|]. exists n1, o1. split; [lia|]. split; [done|]. unfold other_type. intros Ho.
           destruct o1 as [w|]; [|done]. cbn in Ho. injection Ho as Ho. by destruct Hne.
  - unfold cmd_set in *. rewrite Hkey in *. destruct (arg (c_req c) 1); [|cbn; intros _; by apply Hany].
    unfold resolve_type in *. destruct (r_key_type (c_req c)) as [t|] eqn:Et.
    + destruct (set_typed_shape (c_env c) (c_req c) (c_res c) k t) as [[r' Er]|(d & u & Er & Hsame & Hdiff)];
        rewrite Er in *; [cbn; intros _; by apply Hany|].
      unfold key_or_insert_with in *. rewrite (ordinary_guarded _ _ _ Hord) in *. cbn. intros m0 m0' o0 Hm0 Hm0' n n' v Hn Hv Hno.
      destruct (decide (kind v = t)) as [Ev|Hne].
      * specialize (Halone (Some v) (Some (u v).1) (HCA _ _ _ _ Hv Hno)). cbn [run] in Halone.
        unfold with_keys in Halone. cbn [st_keys st_counters] in Halone. rewrite lookup_delete in Halone. cbn [from_option id] in Halone.
        destruct (Hsame v Ev) as [-> H1]. destruct (u d) as [v' r']. cbn in *. apply Halone. intros Hnp.
        rewrite lookup_insert. by rewrite H1.
      * right. left. rewrite (Hdiff v Hne). split; [done|]. exists n, v. split; [by eapply HCM|]. by rewrite Et.
    + cbn [finds]. intros n1 o1 _ Ho1. set (t1 := match o1 with Some v => kind v | None => KTBytes end).
      destruct (set_typed_shape (c_env c) (c_req c) (c_res c) k t1) as [[r' Er]|(d & u & Er & Hsame & Hdiff)]; rewrite Er; cbn.
      * intros Hno. specialize (Halone o1 o1 (HMA _ _ Ho1 Hno)). cbn [run] in Halone. rewrite just_at in Halone.
        fold t1 in Halone. rewrite Er in Halone. cbn [run fst snd] in Halone. apply Halone. intros _. apply just_at.
      * intros m0 m0' o0 Hm0 (Hm1 & _). unfold key_or_insert_with in *. rewrite (ordinary_guarded _ _ _ Hord) in *. cbn. intros n n' v Hn Hv Hno.
        destruct (decide (kind v = t1)) as [Ev|Hne].
        -- specialize (Halone (Some v) (Some (u v).1) (HCA _ _ _ _ Hv Hno)). cbn [run] in Halone. rewrite just_at in Halone.
           rewrite Ev, Er in Halone. cbn [run] in Halone.
           unfold with_keys in Halone. cbn [st_keys st_counters] in Halone. rewrite lookup_delete in Halone. cbn [from_option id] in Halone.
           destruct (Hsame v Ev) as [-> H1]. destruct (u d) as [v' r'] eqn:Eu. cbn in *. apply Halone. intros Hnp.
           rewrite lookup_insert. by rewrite H1.
        -- right. left. rewrite (Hdiff v Hne). split; [done|]. exists n, v. split; [by eapply HCM|].
           rewrite Et. split; [by left|]. exists n1, o1. split; [lia|]. split; [done|]. unfold other_type. intros Ho.
           destruct o1 as [w|]; [|done]. cbn in Ho. injection Ho as Ho. by destruct Hne.
Qed.

(** ** Rename *)

Lemma c124_rename sh scripts s0 sched x b c k d r :
  room_for_all scripts s0 -> lsys_run sh sched (lbegin scripts s0) = Some x -> call_at scripts b = Some c ->
  env_ok (c_env c) -> r_command (c_req c) = CRename -> r_key_type (c_req c) = None ->
  arg (c_req c) 0 = Some k -> arg (c_req c) 1 = Some d -> lreturned x b r ->
  told_renamer sh scripts s0 sched b c k d r.
Proof.
  intros Hroom Hx Hc He Hcmd Ht Hk Hd Hr.
  set (M := noticed sh scripts s0 sched b). set (C := replaced sh scripts s0 sched b).
  set (T := fun t r => no_more sh scripts s0 sched b t -> told_renamer sh scripts s0 sched b c k d r).
  enough (Hall : forall t, finds M C T t (command_prog (c_env c) (c_req c) (c_res c))).
  { destruct (finds_run M C T sh scripts s0 sched x b c r Hroom Hc) as (t & H1 & H2); [done|done|done|done|done|]. by apply H1. }
  intros t0.
  unfold command_prog. rewrite Hcmd. unfold cmd_rename. rewrite Ht, Hk, Hd.
  cbn [finds]. intros n1 o1 _ H1. destruct o1 as [v1|].
  2:{ cbn. intros _. split; [done|]. left. split; [done|]. by exists n1. }
  cbn [finds]. intros n2 o2 H12 H2. destruct o2 as [v2|].
  { cbn. intros _. split; [done|]. right. split; [done|]. by exists n1, n2, v1, v2. }
  cbn [finds]. intros n3 n3' o3 H23 H3. destruct o3 as [v3|].
  2:{ cbn. intros _. split; [done|]. left. split; [done|]. exists n3. by destruct H3 as (_ & H3 & _). }
  cbn [finds]. intros n4 n4' o4 H34 H4 Hno.
  pose proof (responds_copy (c_env c) (c_res c) (VBytes d) He) as Hres.
  unfold told_renamer.
  assert (Hend : exists m n n' i i' v o, m <= n /\ n' <= i /\ noticed sh scripts s0 sched b d m None /\
    replaced sh scripts s0 sched b k n n' (Some v) None /\ replaced sh scripts s0 sched b d i i' o (Some v) /\
    forall l j j' p p', replaced sh scripts s0 sched b l j j' p p' -> j' <= i').
  { exists n2, n3, n3', n4, n4', v3, o4. repeat (split; [done|]). exact Hno. }
  change (match cres_of (copy_to (c_env c) (RValue (VBytes d)) (c_res c)) with
    | CErr err out => out = c_res c /\
      ((err = EKeyNonexistent /\ exists n, noticed sh scripts s0 sched b k n None) \/
       (err = EPreconditionFailed /\ exists n m v w, n <= m /\ noticed sh scripts s0 sched b k n (Some v) /\
          noticed sh scripts s0 sched b d m (Some w)))
    | _ => responds (c_env c) (c_res c) (VBytes d) (cres_of (copy_to (c_env c) (RValue (VBytes d)) (c_res c))) /\
      exists m n n' i i' v o, m <= n /\ n' <= i /\ noticed sh scripts s0 sched b d m None /\
        replaced sh scripts s0 sched b k n n' (Some v) None /\ replaced sh scripts s0 sched b d i i' o (Some v) /\
        forall l j j' p p', replaced sh scripts s0 sched b l j j' p p' -> j' <= i'
    end).
  unfold cres_of in *. destruct (copy_to _ _ _); by split.
Qed.

(** ** Two calls never change a key at once *)

Lemma c124_apart sh scripts s0 sched x k a b n1 n1' o1 o1' n2 n2' o2 o2' :
  lsys_run sh sched (lbegin scripts s0) = Some x -> a <> b ->
  replaced sh scripts s0 sched a k n1 n1' o1 o1' -> replaced sh scripts s0 sched b k n2 n2' o2 o2' ->
  n1' <= n2 \/ n2' <= n1.
Proof.
  intros Hx Hab (Hn1 & (Hl1 & y1 & Hy1 & Hr1 & Hu1 & _) & _ & Hw1) (Hn2 & (Hl2 & y2 & Hy2 & Hr2 & Hu2 & _) & (Hl2' & _) & Hw2).
  assert (Hno : forall y c, unlocked sh y k -> writing sh y c k -> False).
  { intros y c Hu (cl & Hcl & _ & Hh). apply elem_of_list_lookup_2 in Hcl. by apply (Hu cl). }
  destruct (lt_eq_lt_dec n1 n2) as [[H|H]|H].
  - destruct (le_lt_dec n1' n2); [by left|]. exfalso. by eapply (Hno y2 a), (Hw1 n2).
  - exfalso. subst n2. destruct (MemLin.lsys_run_take _ _ _ _ _ (S n1) Hx) as [z Hz].
    destruct (Hw1 (S n1) z) as (cl & Hcl & Hd & Hh); [lia|lia|done|].
    destruct (Hw2 (S n1) z) as (cl' & Hcl' & Hd' & Hh'); [lia|lia|done|].
    destruct (decide (a.1 = b.1)) as [E|E].
    + apply Hab. destruct a, b. cbn in *. subst. assert (cl' = cl) as -> by congruence. by subst.
    + destruct (lsys_run_sim _ _ _ _ _ Hx) as (sch & f & _ & _ & _ & H4).
      destruct (H4 (S n1) z) as (y & _ & Hs); [lia|done|]. by eapply (excl_write sh z y a.1 b.1).
  - destruct (le_lt_dec n2' n1); [by right|]. exfalso. by eapply (Hno y1 b), (Hw2 n1).
Qed.

(** ** Tasks that share a memory client *)

Section tasks.
  Context (sh : shards) (tasks : list task) (s0 : store) (sched : list (nat * list value)) (a b : nat * nat).
  Hypothesis Hs : same_place tasks a b.

  Lemma running_tasks y : running y b -> task_running tasks y a.
  Proof.
    intros (cl & Hcl & Hd & Hnow). split.
    - intros Ha. destruct (ahead_not_begun _ _ _ _ Hs Ha) as (cl' & Hcl' & Hb).
      assert (cl' = cl) as -> by congruence. unfold lbegun in Hb. destruct (lc_now cl); [lia|done].
    - intros r Hg. destruct (got_dispatch _ _ _ _ _ Hs Hg) as (q & cl' & Hcl' & Hq).
      assert (cl' = cl) as -> by congruence. apply lookup_lt_Some in Hq. lia.
  Qed.

  Lemma noticed_tasks k n o : noticed sh (map dispatches tasks) s0 sched b k n o -> task_noticed sh tasks s0 sched a k n o.
  Proof.
    intros (Hn & y & Hy & Hr & Hu & Ho). split; [done|]. exists y. split_and!; try done. all: by apply running_tasks.
  Qed.

  Lemma writing_tasks y k : writing sh y b k -> task_writing sh tasks y a k.
  Proof.
    intros (cl & Hcl & Hd & Hh). split.
    - apply running_tasks. exists cl. split_and!; [done|done|]. unfold lc_thread in Hh. by destruct (lc_now cl).
    - exists cl. destruct Hs as [-> _]. done.
  Qed.

  Lemma replaced_tasks k n n' o o' : replaced sh (map dispatches tasks) s0 sched b k n n' o o' ->
    task_replaced sh tasks s0 sched a k n n' o o'.
  Proof.
    intros (Hn & H1 & H2 & Hw). split_and!; [done|by apply noticed_tasks|by apply noticed_tasks|].
    intros m z H3 H4 Hz. apply writing_tasks. by eapply Hw.
  Qed.

End tasks.

(** And back. *)
Lemma task_place tasks x a b cl : same_place tasks a b -> task_running tasks x a -> x.1 !! a.1 = Some cl ->
  length (lc_done cl) = b.2.
Proof.
  intros (E & h & e & c & bl & Hh & Hj & Hb & En) [Hah Hgo] Hcl.
  assert (H1 : ~ lbegun cl <= b.2). { intros H. apply Hah. exists h, cl. by rewrite En in H. }
  assert (H2 : ~ b.2 < length (lc_done cl)).
  { intros [q Hq]%lookup_lt_is_Some. apply (Hgo (finish e c q)). exists h, cl. split_and!; [done|done|].
    rewrite (results_at _ _ _ _ _ _ Hj Hb), <-En, Hq. done. }
  unfold lbegun in H1. destruct (lc_now cl); lia.
Qed.

Lemma tasks_running tasks x a b cl : same_place tasks a b -> task_running tasks x a -> x.1 !! a.1 = Some cl -> running x b.
Proof.
  intros Hs Hr Hcl. pose proof (task_place _ _ _ _ _ Hs Hr Hcl) as Hd. exists cl.
  destruct Hs as (E & h & e & c & bl & Hh & Hj & Hb & En). rewrite <-E. split_and!; [done|done|].
  intros Hn. destruct Hr as [Hah _]. apply Hah. exists h, cl. split_and!; [done|done|].
  unfold lbegun. rewrite Hn, Hd, En. lia.
Qed.

Lemma in_script_run sh scripts s0 : forall sched x, lsys_run sh sched (lbegin scripts s0) = Some x -> MemFair.in_script scripts x.
Proof.
  induction sched as [|[i mid] sched IH] using rev_ind; intros x Hx.
  - cbn in Hx. injection Hx as <-. apply MemFair.in_script_begin.
  - rewrite lsys_run_app in Hx. destruct (lsys_run sh sched _) as [z|]; [|done]. cbn in Hx.
    destruct (lsys_step sh i mid z) as [z1|] eqn:Hs; [|done]. injection Hx as ->.
    eapply MemFair.in_script_step; [done|]. by apply IH.
Qed.

Section back.
  Context (sh : shards) (tasks : list task) (s0 : store) (sched : list (nat * list value)) (a b : nat * nat).
  Hypothesis Hs : same_place tasks a b.

  Lemma tasks_noticed k n o : task_noticed sh tasks s0 sched a k n o -> noticed sh (map dispatches tasks) s0 sched b k n o.
  Proof.
    intros (Hn & y & Hy & Hr & Hu & Ho). split; [done|]. exists y. split_and!; try done.
    destruct (in_script_run _ _ _ _ _ Hy) as [Hlen _].
    destruct (lookup_lt_is_Some_2 y.1 a.1) as [cl Hcl].
    { rewrite Hlen, map_length. destruct Hs as (_ & h & e & c & bl & Hh & _). by eapply lookup_lt_Some. }
    by eapply tasks_running.
  Qed.

  Lemma tasks_writing y k : task_writing sh tasks y a k -> writing sh y b k.
  Proof.
    intros (Hr & cl & Hcl & Hh). exists cl. pose proof (task_place _ _ _ _ _ Hs Hr Hcl). destruct Hs as [E _]. by rewrite <-E.
  Qed.

  Lemma tasks_replaced k n n' o o' : task_replaced sh tasks s0 sched a k n n' o o' ->
    replaced sh (map dispatches tasks) s0 sched b k n n' o o'.
  Proof.
    intros (H1 & H2 & H3 & H4). split_and!; [done|by apply tasks_noticed|by apply tasks_noticed|].
    intros m z Hm Hm' Hz. apply tasks_writing. by eapply H4.
  Qed.
End back.

Lemma acted_tasks sh tasks s0 sched a b k o o' : same_place tasks a b ->
  acted sh (map dispatches tasks) s0 sched b k o o' -> task_acted sh tasks s0 sched a k o o'.
Proof.
  intros Hs (n' & Hno & H). exists n'. split.
  - intros m m' p p' Hre. eapply Hno. by eapply tasks_replaced.
  - destruct H as [[n H]|[E H]]; [left; exists n; by eapply replaced_tasks|right].
    split; [done|]. by eapply noticed_tasks.
Qed.

Lemma mem_left e s c bl : build e c = ROk bl -> (mem_call e s c).1 = (dispatch e s (into_request bl) []).1.
Proof. intros Hb. rewrite mem_call_phases, Hb. by destruct (dispatch e s (into_request bl) []). Qed.

Lemma changes_key_asks e c k bl : env_ok e -> (sends c <= 255)%N -> changes_key c k -> build e c = ROk bl ->
  exists cmd kt l, asks (into_request bl) cmd kt (k :: l) /\ changes_one cmd /\
    (cmd = CSet -> exists w, kt = Some (kind w) /\ sets_to c k w) /\
    (kt = None -> cmd <> CSet /\ cmd <> CAppend).
Proof.
  intros He Hs Hc Hb. pose proof (build_asks e c bl He Hs Hb) as Ha. unfold changes_one.
  destruct Hc as [(w & [->| ->])|[(w & [->| ->])|[(t & [->| ->])|[(w & [->| ->])|[(n & [->| ->])|[(y & [->| ->])| ->]]]]]];
    eexists _, _, _; (split; [exact Ha|]); (split; [tauto|]); (split; [intros E; try done|done]);
    exists w; (split; [done|]); (by left) || (by right).
Qed.

Lemma c124_tasks sh tasks s0 sched x a e c k r :
  sendable tasks -> tasks_fit tasks s0 -> at_work sh tasks s0 sched = Some x ->
  task_call tasks a = Some (e, c) -> changes_key c k -> ordinary k -> refused c = None -> got tasks x a r ->
  (exists o o', task_acted sh tasks s0 sched a k o o' /\
     let out := mem_call e (just k o) c in r = out.2 /\ (r <> RPanic -> o' = st_keys out.1 !! k)) \/
  (r = RErr (CERunningCommand EKeyTypeDifferent) /\
   exists w n v, sets_to c k w /\ task_noticed sh tasks s0 sched a k n (Some v) /\ kind v <> kind w) \/
  (forall s, room s -> let out := mem_call e s c in r = out.2 /\ st_keys out.1 = st_keys s).
Proof.
  intros Hsend Hfit Hx Hc Hk Hord Hrf Hg. assert (Hm : made_by_one tasks e c) by by exists a.
  destruct (Hsend _ _ Hm) as [He Hl].
  pose proof (got_cases _ _ _ _ _ _ Hsend Hc Hg) as H.
  rewrite Hrf in H. destruct H as (b & bl & q & Hs & Hb & Hd & Hq & ->).
  destruct (changes_key_asks e c k bl He Hl Hk Hb) as (cmd & kt & l & (Hcmd & Hkt & Hargs) & Hch & Hset & Hun).
  assert (Hk0 : arg (into_request bl) 0 = Some k) by (by rewrite (carried_arg _ _ _ Hargs)).
  rewrite <-Hcmd in Hch.
  destruct (c124_one sh (map dispatches tasks) s0 sched x b _ k q (fit_room _ _ Hfit) Hx Hd Hch Hk0 Hord Hq)
    as [(o & o' & Ho & H1 & H2)|[(H1 & n & v & Hv & H2)|H]]; cbn [c_env c_req c_res] in *.
  - left. exists o, o'. split; [by eapply acted_tasks|]. cbn zeta. rewrite (mem_alone _ _ _ _ Hb), (mem_left _ _ _ _ Hb).
    split; [by rewrite H1|]. intros Hp. apply H2. intros E. rewrite E in Hp. by apply Hp.
  - right. left. split; [by rewrite H1|]. rewrite Hkt in H2. destruct kt as [t|].
    + destruct H2 as [H2 H3]. rewrite Hcmd in H2. destruct (Hset H2) as (w & [= ->] & Hw).
      exists w, n, v. split_and!; [done|by eapply noticed_tasks|done].
    + exfalso. destruct (Hun eq_refl) as [Hu1 Hu2]. destruct H2 as [[H2|H2] _]; congruence.
  - right. right. intros s Hs0. destruct (H s Hs0) as [H1 H2]. cbn zeta. rewrite (mem_alone _ _ _ _ Hb), (mem_left _ _ _ _ Hb).
    split; [by rewrite H1|done].
Qed.

(** Adding to an integer: what is returned is what was left, and that is what was found and the amount. *)
Lemma c124_add sh tasks s0 sched x a e k n r :
  sendable tasks -> tasks_fit tasks s0 -> at_work sh tasks s0 sched = Some x ->
  task_call tasks a = Some (e, KIncrementInt k n) -> i64_range (default 1%Z n) -> ordinary k -> got tasks x a r ->
  exists o o', task_acted sh tasks s0 sched a k o o' /\
  match default (VInteger 0) o with
  | VInteger z =>
    let sum := (z + default 1%Z n)%Z in
    if decide (i64_range sum) then o' = Some (VInteger sum) /\ r = ROk (RpValue (VInteger sum))
    else if debug e then r = RPanic
    else o' = Some (VInteger (i64_wrap sum)) /\ r = ROk (RpValue (VInteger (i64_wrap sum)))
  | _ => o' = o /\ r = RErr (CERunningCommand EKeyTypeDifferent)
  end.
Proof.
  intros Hsend Hfit Hx Hc Hn Ho Hg. assert (Hm : made_by_one tasks e (KIncrementInt k n)) by by exists a.
  destruct (Hsend _ _ Hm) as [He Hl].
  assert (Hr : refused (KIncrementInt k n) = None).
  { destruct Ho as [Hne%nonempty _]. cbn. by rewrite Hne. }
  assert (Hck : changes_key (KIncrementInt k n) k) by (do 4 right; left; eexists; by left).
  destruct (makes_built e _ He Hl Hr) as (bl & Hb & _).
  pose proof (build_asks e _ bl He Hl Hb) as Ha. cbn in Ha.
  assert (Hal : forall s, room s -> let out := mem_call e s (KIncrementInt k n) in
    match default (VInteger 0) (st_keys s !! k) with
    | VInteger z =>
      let sum := (z + default 1%Z n)%Z in
      if decide (i64_range sum) then st_keys out.1 !! k = Some (VInteger sum) /\ out.2 = ROk (RpValue (VInteger sum))
      else if debug e then out.2 = RPanic
      else st_keys out.1 !! k = Some (VInteger (i64_wrap sum)) /\ out.2 = ROk (RpValue (VInteger (i64_wrap sum)))
    | _ => st_keys out.1 !! k = st_keys s !! k /\ out.2 = RErr (CERunningCommand EKeyTypeDifferent)
    end).
  { intros s Hs. cbn zeta. rewrite (mem_alone _ _ _ _ Hb), (mem_left _ _ _ _ Hb).
    assert (Hsp : spec_command (debug e) (engine_stats s) CIncrementBy (Some KTInteger) [k; i64_enc (default 1%Z n)] (st_keys s) =
      spec_add_int (debug e) (st_keys s) k (default 1%Z n)).
    { cbn [spec_command]. unfold spec_increment_by. by rewrite arg_int_enc. }
    unfold spec_add_int in Hsp. rewrite ordinary_ok in Hsp by done.
    assert (Hval : forall z, i64_range z -> spec_command (debug e) (engine_stats s) CIncrementBy (Some KTInteger)
      [k; i64_enc (default 1%Z n)] (st_keys s) = (<[k := VInteger z]> (st_keys s), AVal (VInteger z)) ->
      st_keys (dispatch e s (into_request bl) []).1 !! k = Some (VInteger z) /\
      finish e (KIncrementInt k n) (dispatch e s (into_request bl) []).2 = ROk (RpValue (VInteger z))).
    { intros z Hz E. destruct (dispatch_val_happens e s _ [] _ _ _ _ _ He Ha Hs ltac:(done) E) as [H1 H2].
      split; [by rewrite H2, lookup_insert|]. pose proof (sound_int z Hz) as Hsv. pose proof Hsv as (Hwf & Hlim & _).
      destruct H1 as [(msg & -> & Hf)|(_ & Hnn & _)]; [|done].
      unfold finish, received. cbn [app] in *. by rewrite (Hf Hlim (debug e) Hwf (sound_decodable _ _ Hsv)). }
    assert (Herr : spec_command (debug e) (engine_stats s) CIncrementBy (Some KTInteger)
      [k; i64_enc (default 1%Z n)] (st_keys s) = (st_keys s, AErr EKeyTypeDifferent) ->
      st_keys (dispatch e s (into_request bl) []).1 !! k = st_keys s !! k /\
      finish e (KIncrementInt k n) (dispatch e s (into_request bl) []).2 = RErr (CERunningCommand EKeyTypeDifferent)).
    { intros E. destruct (dispatch_err e s _ [] _ _ _ He Ha Hs _ _ E) as [-> ->]. done. }
    destruct (default (VInteger 0) (st_keys s !! k)) as [| | |z| | | |]; try (by apply Herr).
    case_decide as Hz; [by apply Hval|]. destruct (debug e) eqn:Hdbg.
    - rewrite <-Hdbg in Hsp. destruct (dispatch_crash e s _ [] _ _ _ He Ha Hs _ Hsp) as [-> _]. done.
    - rewrite <-Hdbg in *. apply Hval; [apply i64_wrap_range|done]. }
  destruct (c124_tasks sh tasks s0 sched x a e _ k r Hsend Hfit Hx Hc Hck Ho Hr Hg)
    as [(o & o' & Hoo & H1 & H2)|[(_ & w & _ & _ & [E|E] & _)|H]]; [|done|done|].
  - exists o, o'. split; [done|]. specialize (Hal (just k o) (just_room _ _)). cbn zeta in Hal, H1, H2. rewrite just_at in Hal.
    rewrite <-H1 in Hal. destruct (default (VInteger 0) o) as [| | |z| | | |]; try (destruct Hal as [Hal ->]; split; [|done]; rewrite H2 by done; done).
    cbn zeta. case_decide; [destruct Hal as [Hal ->]; split; [|done]; rewrite H2 by done; done|].
    destruct (debug e); [done|]. destruct Hal as [Hal ->]; split; [|done]; rewrite H2 by done; done.
  - exfalso. pose proof (Hal _ (just_room k (Some (VBoolean true)))) as E1. pose proof (Hal _ (just_room k None)) as E2.
    pose proof (H _ (just_room k (Some (VBoolean true)))) as [E3 _]. pose proof (H _ (just_room k None)) as [E4 E5].
    cbn zeta in *. rewrite just_at in *. cbn [from_option id] in *.
    rewrite decide_True in E2 by (by rewrite Z.add_0_l). destruct E1 as [_ E1]. destruct E2 as [_ E2]. congruence.
Qed.

(** ** Rename by tasks *)

Lemma c124_tasks_rename sh tasks s0 sched x a e k d r :
  sendable tasks -> tasks_fit tasks s0 -> at_work sh tasks s0 sched = Some x ->
  task_call tasks a = Some (e, KRename k d) -> k <> [] -> d <> [] -> got tasks x a r ->
  (r = RErr (CERunningCommand EKeyNonexistent) /\ exists n, task_noticed sh tasks s0 sched a k n None) \/
  (r = RErr (CERunningCommand EPreconditionFailed) /\ exists n m v w, n <= m /\
     task_noticed sh tasks s0 sched a k n (Some v) /\ task_noticed sh tasks s0 sched a d m (Some w)) \/
  ((sound (VBytes d) -> r = ROk (RpBytes d)) /\
   exists m n n' i i' v o, m <= n /\ n' <= i /\ task_noticed sh tasks s0 sched a d m None /\
     task_replaced sh tasks s0 sched a k n n' (Some v) None /\ task_replaced sh tasks s0 sched a d i i' o (Some v) /\
     forall l j j' p p', task_replaced sh tasks s0 sched a l j j' p p' -> j' <= i').
Proof.
  intros Hsend Hfit Hx Hc Hk Hd Hg. assert (Hm : made_by_one tasks e (KRename k d)) by by exists a.
  destruct (Hsend _ _ Hm) as [He Hl].
  pose proof (got_cases _ _ _ _ _ _ Hsend Hc Hg) as H.
  assert (Hr : refused (KRename k d) = None).
  { apply nonempty in Hk, Hd. cbn. by rewrite Hk, Hd. }
  rewrite Hr in H. destruct H as (b & bl & q & Hs & Hb & Hcl & Hq & ->).
  pose proof (build_asks e _ bl He Hl Hb) as Ha. cbn in Ha. destruct Ha as (Hcmd & Hkt & Hargs).
  assert (Hk0 : arg (into_request bl) 0 = Some k) by (by rewrite (carried_arg _ _ _ Hargs)).
  assert (Hk1 : arg (into_request bl) 1 = Some d) by (by rewrite (carried_arg _ _ _ Hargs)).
  pose proof (c124_rename sh (map dispatches tasks) s0 sched x b _ k d q (fit_room _ _ Hfit) Hx Hcl He Hcmd Hkt Hk0 Hk1 Hq) as Ht.
  unfold told_renamer in Ht. cbn [c_env c_res] in Ht.
  assert (Hok : (match q with CErr _ _ => False | _ => True end) ->
    responds e [] (VBytes d) q /\
    (exists m n n' i i' v o, m <= n /\ n' <= i /\ noticed sh (map dispatches tasks) s0 sched b d m None /\
      replaced sh (map dispatches tasks) s0 sched b k n n' (Some v) None /\
      replaced sh (map dispatches tasks) s0 sched b d i i' o (Some v) /\
      forall l j j' p p', replaced sh (map dispatches tasks) s0 sched b l j j' p p' -> j' <= i') ->
    (sound (VBytes d) -> finish e (KRename k d) q = ROk (RpBytes d)) /\
    exists m n n' i i' v o, m <= n /\ n' <= i /\ task_noticed sh tasks s0 sched a d m None /\
     task_replaced sh tasks s0 sched a k n n' (Some v) None /\ task_replaced sh tasks s0 sched a d i i' o (Some v) /\
     forall l j j' p p', task_replaced sh tasks s0 sched a l j j' p p' -> j' <= i').
  { intros _ [Hres (m & n & n' & i & i' & v & o & H1 & H2 & H3 & H4 & H5 & H6)]. split.
    - intros Hsv. pose proof Hsv as (Hwf & Hlim & _). destruct Hres as [(msg & -> & Hf)|(_ & Hnn & _)]; [|done].
      unfold finish, received. cbn [app] in *. by rewrite (Hf Hlim (debug e) Hwf (sound_decodable _ _ Hsv)).
    - exists m, n, n', i, i', v, o. split_and!; [done|done|by eapply noticed_tasks|by eapply replaced_tasks|by eapply replaced_tasks|].
      intros l j j' p p' Hre. eapply H6. by eapply tasks_replaced. }
  destruct q as [msg|err out|].
  - right. right. by apply Hok.
  - destruct Ht as [-> [[-> [n Hn]]|[-> (n & m & v & w & H1 & H2 & H3)]]].
    + left. split; [done|]. exists n. by eapply noticed_tasks.
    + right. left. split; [done|]. exists n, m, v, w. split_and!; [done|by eapply noticed_tasks|by eapply noticed_tasks].
  - right. right. by apply Hok.
Qed.

Lemma c124_tasks_apart sh tasks s0 sched x k a b e c e' c' n1 n1' o1 o1' n2 n2' o2 o2' :
  sendable tasks -> at_work sh tasks s0 sched = Some x ->
  task_call tasks a = Some (e, c) -> refused c = None -> task_call tasks b = Some (e', c') -> refused c' = None -> a <> b ->
  task_replaced sh tasks s0 sched a k n1 n1' o1 o1' -> task_replaced sh tasks s0 sched b k n2 n2' o2 o2' ->
  n1' <= n2 \/ n2' <= n1.
Proof.
  intros Hsend Hx Hca Hra Hcb Hrb Hab (Hn1 & (Hl1 & y1 & Hy1 & Hr1 & Hu1 & _) & _ & Hw1)
    (Hn2 & (Hl2 & y2 & Hy2 & Hr2 & Hu2 & _) & (Hl2' & _) & Hw2).
  assert (Hno : forall y c, unlocked sh y k -> task_writing sh tasks y c k -> False).
  { intros y c0 Hu (_ & cl & Hcl & Hh). apply elem_of_list_lookup_2 in Hcl. by apply (Hu cl). }
  destruct (lt_eq_lt_dec n1 n2) as [[H|H]|H].
  - destruct (le_lt_dec n1' n2); [by left|]. exfalso. by eapply (Hno y2 a), (Hw1 n2).
  - exfalso. subst n2. destruct (MemLin.lsys_run_take _ _ _ _ _ (S n1) Hx) as [z Hz].
    destruct (Hw1 (S n1) z) as (Ha & cl & Hcl & Hh); [lia|lia|done|].
    destruct (Hw2 (S n1) z) as (Hb & cl' & Hcl' & Hh'); [lia|lia|done|].
    destruct (decide (a.1 = b.1)) as [E|E].
    + assert (Hpl : forall a e c, task_call tasks a = Some (e, c) -> refused c = None -> exists p, same_place tasks a p).
      { intros a0 e0 c0 Hc0 Hr0. assert (Hm : made_by_one tasks e0 c0) by by exists a0.
        destruct (Hsend _ _ Hm) as [He0 Hl0]. destruct (makes_built e0 c0 He0 Hl0 Hr0) as (bl & Hbl & _).
        destruct (tasks_call_at _ _ _ _ _ Hc0 Hbl) as (p & Hp & _). by exists p. }
      destruct (Hpl _ _ _ Hca Hra) as [p Hp]. destruct (Hpl _ _ _ Hcb Hrb) as [p' Hp'].
      rewrite E in Hcl. assert (cl' = cl) as -> by congruence. rewrite <-E in Hcl.
      pose proof (task_place _ _ _ _ _ Hp Ha Hcl) as E1. pose proof (task_place _ _ _ _ _ Hp' Hb Hcl') as E2.
      apply Hab. eapply (same_place_inj tasks _ _ p); [done|]. replace p with p'; [done|].
      destruct Hp as [E3 _], Hp' as [E4 _]. destruct p, p'. cbn in *. congruence.
    + destruct (lsys_run_sim _ _ _ _ _ Hx) as (sch & f & _ & _ & _ & H4).
      destruct (H4 (S n1) z) as (y & _ & Hs); [lia|done|]. by eapply (excl_write sh z y a.1 b.1).
  - destruct (le_lt_dec n2' n1); [by right|]. exfalso. by eapply (Hno y1 b), (Hw2 n1).
Qed.
