(** What clients see of a key that only grows: the proof of C118. *)
From Verif Require Import Locks LockSpec LockScripts LockScriptSpec.
From Verif Require Import Bytes BytesFacts Utf8 Float64 Value CommandId
  Request Response RespContext Metrics Prog Commands EngineSpec WireSpec RequestSpec
  HistorySpec EngineProps Concurrent ConcSpec ConcFacts ConcProps ConcExact Scripts LinSpec
  LinFacts KeyLinSpec KeyLin KeyLinFacts LockScriptFacts SetRaceSpec SetRaceFacts ForwardSpec.
From stdpp Require Import gmap list.
From Coq Require Import NArith ZArith Lia ZifyBool ZifyNat ZifyN.

(** A Get of [k], of whatever type. *)
Definition any_get (c : call) (k : bytes) : Prop := r_command (c_req c) = CGet /\ arg (c_req c) 0 = Some k.

Lemma gets_any c k t : gets c k t -> any_get c k.
Proof. intros (kt & l & Hq & _). pose proof Hq as (Hc & _). split; [done|by eapply asks_arg0]. Qed.

Lemma get_keeps c s k : any_get c k -> room s -> st_keys (dispatch (c_env c) s (c_req c) (c_res c)).1 !! k = st_keys s !! k.
Proof.
  intros [Hc _] Hr. apply keeps_unwritten; [|done]. intros [Hro _]. by rewrite Hc in Hro.
Qed.

Lemma get_answers c s k t v : env_ok (c_env c) -> room s -> ordinary k -> gets c k t -> st_keys s !! k = Some v ->
  kind v = t -> responds (c_env c) (c_res c) v (dispatch (c_env c) s (c_req c) (c_res c)).2.
Proof.
  intros He Hr Hk (kt & l & Hq & Hkt) Hv <-. eapply dispatch_val; [done|done|done|].
  cbn. unfold spec_get. rewrite ordinary_ok, Hv by done.
  destruct Hkt as [->| ->]; [done|]. by rewrite decide_True by done.
Qed.

(** A calls that only read or update the key: [I] holds of what is at the key and is passed on. *)
Section forward.
  Context (k : bytes) (scripts : list (list call)) (s0 : store) (sched : list nat) (x : system).
  Context (U : call -> Prop) (I : nat -> value -> Prop) (leq : value -> value -> Prop)
    (S : call -> value -> value -> cres -> Prop) (v0 : value).
  Hypothesis Hroom : room_for_all scripts s0.
  Hypothesis H0 : st_keys s0 !! k = Some v0.
  Hypothesis HI0 : I 0 v0.
  Hypothesis Hrefl : forall n v, I n v -> leq v v.
  Hypothesis Htrans : forall u v w, leq u v -> leq v w -> leq u w.
  Hypothesis HU : forall c, issued scripts c -> U c \/ ~ may_write (c_req c) k.
  Hypothesis HUw : forall c, issued scripts c -> U c -> about k c /\ one_update (c_req c) /\ may_write (c_req c) k.
  Hypothesis HUs : forall c s n v, issued scripts c -> U c -> room s -> st_keys s !! k = Some v -> I n v ->
    n < length (concat scripts) ->
    let d := dispatch (c_env c) s (c_req c) (c_res c) in
    exists w, st_keys d.1 !! k = Some w /\ I (Datatypes.S n) w /\ leq v w /\ S c v w d.2.
  Hypothesis HGs : forall c s n v, issued scripts c -> any_get c k -> room s -> st_keys s !! k = Some v -> I n v ->
    S c v v (dispatch (c_env c) s (c_req c) (c_res c)).2.
  Hypothesis Hup : forall n v, I n v -> I (Datatypes.S n) v.
  Hypothesis Hx : sys_run sched (begin scripts s0) = Some x.

  (** In one order, every call goes from one value to the next. *)
  Lemma forward : exists (l : list (nat * nat)) (vals : nat -> value),
    vals 0 = v0 /\ st_keys x.2 !! k = Some (vals (length l)) /\
    I (length l) (vals (length l)) /\ length l <= length (concat scripts) /\
    (forall p q, p <= q <= length l -> leq (vals p) (vals q)) /\
    (forall a c r, call_at scripts a = Some c -> U c \/ any_get c k -> returned x a r ->
       exists p, l !! p = Some a /\ S c (vals p) (vals (Datatypes.S p)) r) /\
    (forall i j a b, l !! i = Some a -> l !! j = Some b -> before scripts s0 sched a b -> i < j).
  Proof using All.
    set (W := fun c => U c \/ any_get c k).
    set (T := fun (c : call) (o o' : option value) (r : cres) => forall n v, o = Some v -> I n v ->
      n < length (concat scripts) -> exists w, o' = Some w /\ I (Datatypes.S n) w /\ leq v w /\ S c v w r).
    assert (Hdec : forall c, any_get c k \/ ~ any_get c k).
    { intros c. unfold any_get. destruct (decide (r_command (c_req c) = CGet)), (decide (arg (c_req c) 0 = Some k));
        auto; right; by intros []. }
    assert (Hget : forall c, any_get c k -> about k c /\ ~ one_update (c_req c) /\ ~ may_write (c_req c) k).
    { intros c [Hc Ha]. unfold about, one_access, one_update, may_write. rewrite Hc.
      split_and!; try done; [by left|by intros []|by intros []]. }
    destruct (writers k scripts s0 W T sched x) as (out & vs & Hl & Hno & Hle & Hv & Hin & Hb & Hf); try done.
    - intros c Hc. split.
      + destruct (HU c Hc) as [Hu|?]; [|by right]. left. by apply HUw.
      + intros _ _. split; [by eexists|]. intros d Hd Hdel Harg.
        destruct (HU d Hd) as [Hu|Hn].
        * destruct (HUw d Hd Hu) as (_ & Hup' & _). unfold one_update in Hup'. by rewrite Hdel in Hup'.
        * apply Hn. unfold may_write, names. rewrite Hdel. split; [done|by left].
    - intros c Hc. destruct (HU c Hc) as [Hu|Hn].
      + left. split; [by left|]. by apply HUw.
      + destruct (Hdec c) as [Hg|Hg].
        * left. split; [by right|]. by apply Hget.
        * right. split; [|done]. intros [Hu|?]; [|done]. by apply Hn, HUw.
    - intros s c Hc [Hu|Hg] Hr dd n v Hv HI Hn.
      + by apply (HUs c s n v).
      + exists v. split; [by rewrite <-Hv; apply get_keeps|]. split; [by apply Hup|]. split; [by eapply Hrefl|].
        by eapply HGs.
    - set (vals := fun p => match p with 0 => v0 | Datatypes.S p => default v0 (mjoin (vs !! p)) end).
      assert (Hvs : forall p, p <= length out -> (st_keys s0 !! k :: vs) !! p = Some (Some (vals p)) /\ I p (vals p) /\
        forall q, p = Datatypes.S q -> leq (vals q) (vals p) /\ forall a, out !! q = Some a ->
          exists c, call_at scripts a = Some c /\ W c /\ forall r, returned x a r -> S c (vals q) (vals p) r).
      { induction p as [|p IH]; intros Hp.
        - cbn. rewrite H0. split; [done|]. split; [done|]. intros q [=].
        - destruct IH as (E & HI & _); [lia|].
          destruct (lookup_lt_is_Some_2 out p) as [a Ha]; [lia|].
          destruct (Hv _ _ Ha) as (c & r & u & u' & E1 & E2 & E3 & E4 & E5 & E6).
          rewrite E in E3. injection E3 as <-.
          destruct (E5 p (vals p) eq_refl HI) as (w & -> & HIw & Hleq & HS); [lia|].
          assert (Ew : vals (Datatypes.S p) = w) by (change (default v0 (mjoin (vs !! p)) = w); by rewrite E4).
          rewrite Ew. split; [done|]. split; [done|]. intros q [= <-]. split; [done|].
          intros a' Ha'. assert (a' = a) as -> by congruence. exists c. split; [done|]. split; [done|].
          intros r' Hr'. by rewrite (E6 _ Hr'). }
      exists out, vals. split_and!.
      + done.
      + rewrite Hf, last_lookup. destruct (Hvs (length out)) as [E _]; [done|].
        destruct (length out) as [|m] eqn:Em; cbn in E.
        * rewrite Hl. cbn. destruct (vs !! 0) eqn:E0; [apply lookup_lt_Some in E0; lia|]. done.
        * rewrite Hl. change (vs !! m = Some (Some (vals (Datatypes.S m)))) in E. cbn [pred].
          rewrite E. done.
      + by destruct (Hvs (length out)) as (_ & ? & _).
      + done.
      + intros p q [Hpq Hq]. induction Hpq as [|q Hpq IH].
        * destruct (Hvs p Hq) as (_ & HI & _). by eapply Hrefl.
        * destruct (Hvs (Datatypes.S q) Hq) as (_ & _ & Hstep). eapply Htrans; [apply IH; lia|].
          by apply (Hstep q).
      + intros a c r Hc HW Hr. destruct (elem_of_list_lookup_1 _ _ (Hin _ _ _ Hc HW Hr)) as [p Hp].
        exists p. split; [done|]. apply lookup_lt_Some in Hp as Hlt.
        destruct (Hvs (Datatypes.S p)) as (_ & _ & Hstep); [lia|]. destruct (Hstep p eq_refl) as [_ Ha].
        destruct (Ha a Hp) as (c' & Hc' & _ & HS). assert (c' = c) as -> by congruence. by apply HS.
      + done.
  Qed.
End forward.

Lemma c118_counter k scripts s0 z0 D sched x :
  room_for_all scripts s0 -> envs_ok scripts -> ordinary k -> st_keys s0 !! k = Some (VInteger z0) ->
  (forall c, issued scripts c -> (exists d, adds_int c k d) \/ ~ may_write (c_req c) k) ->
  (forall c d, issued scripts c -> adds_int c k d -> (0 <= d <= D)%Z) -> (0 <= D)%Z ->
  i64_range z0 -> i64_range D -> i64_range (z0 + D * Z.of_nat (length (concat scripts))) ->
  sys_run sched (begin scripts s0) = Some x ->
  exists zn, st_keys x.2 !! k = Some (VInteger zn) /\
  (zn <= z0 + D * Z.of_nat (length (concat scripts)))%Z /\
  (forall a c d r, call_at scripts a = Some c -> counter_call c k d -> returned x a r ->
     exists z, responds (c_env c) (c_res c) (VInteger z) r /\ (z0 + d <= z <= zn)%Z) /\
  (forall a b c c' d d' r r', call_at scripts a = Some c -> call_at scripts b = Some c' ->
     counter_call c k d -> counter_call c' k d' -> returned x a r -> returned x b r' ->
     before scripts s0 sched a b ->
     exists z z', responds (c_env c) (c_res c) (VInteger z) r /\
       responds (c_env c') (c_res c') (VInteger z') r' /\ (z0 + d <= z /\ z + d' <= z' <= zn)%Z).
Proof.
  intros Hroom Henv Hk H0 Hall Hd HD Hr0 HrD Hr1 Hx.
  set (I := fun n v => exists z, v = VInteger z /\ (z0 <= z <= z0 + D * Z.of_nat n)%Z).
  set (leq := fun v w => exists y z, v = VInteger y /\ w = VInteger z /\ (y <= z)%Z).
  set (Sp := fun (c : call) (v w : value) (r : cres) => forall d, counter_call c k d ->
    exists y z, v = VInteger y /\ w = VInteger z /\ (y + d = z)%Z /\ (0 <= d)%Z /\
      responds (c_env c) (c_res c) (VInteger z) r).
  destruct (forward k scripts s0 sched x (fun c => exists d, adds_int c k d) I leq Sp (VInteger z0))
    as (l & vals & Hv0 & Hend & HIn & Hll & Hmono & Hret & Hord); try done.
  - exists z0. split; [done|]. lia.
  - intros n v (z & -> & _). exists z, z. split_and!; [done..|lia].
  - intros u v w (y & z & -> & -> & ?) (y' & z' & [= <-] & -> & ?). exists y, z'. split_and!; [done..|lia].
  - intros c Hc [d Ha]. destruct (adds_int_about _ _ _ Ha) as (H1 & H2 & _). split_and!; [done..|].
    by eapply adds_int_writes.
  - intros c s n v Hc [d Ha] Hr Hv (z & -> & Hz) Hn dd. subst dd.
    assert (Hmul : (D * Z.of_nat n + D <= D * Z.of_nat (length (concat scripts)))%Z).
    { replace (D * Z.of_nat n + D)%Z with (D * Z.of_nat (Datatypes.S n))%Z by lia.
      apply Z.mul_le_mono_nonneg_l; lia. }
    assert (Hone : forall d, adds_int c k d -> (0 <= d <= D)%Z /\
      responds (c_env c) (c_res c) (VInteger (z + d)) (dispatch (c_env c) s (c_req c) (c_res c)).2 /\
      st_keys (dispatch (c_env c) s (c_req c) (c_res c)).1 !! k = Some (VInteger (z + d))).
    { intros d' Ha'. pose proof (Hd c d' Hc Ha') as Hd'. split; [done|].
      destruct Ha' as (cmd & kt & la & Hq & Hch).
      destruct (c21_exact (c_env c) s (c_req c) (c_res c) cmd kt la k d' z) as [E1 E2]; try done.
      - by apply Henv.
      - by left.
      - unfold i64_range in *; lia.
      - unfold i64_range in *; lia.
      - rewrite E2, lookup_insert. done. }
    destruct (Hone d Ha) as (Hd0 & Hresp & Hst). exists (VInteger (z + d)). split_and!; try done.
    + exists (z + d)%Z. split; [done|]. split; [lia|].
      replace (D * Z.of_nat (Datatypes.S n))%Z with (D * Z.of_nat n + D)%Z by lia. lia.
    + exists z, (z + d)%Z. split_and!; [done..|lia].
    + intros d' [[(kt & la & Hq & _) ->]|Ha'].
      * exfalso. destruct (adds_int_about _ _ _ Ha) as (_ & Hu & _). unfold one_update in Hu.
        destruct Hq as (Hq & _). by rewrite Hq in Hu.
      * destruct (Hone d' Ha') as (Hd1 & Hresp' & Hst'). exists z, (z + d')%Z.
        rewrite Hst in Hst'. injection Hst' as E. split_and!; try done; [by rewrite E|lia].
  - intros c s n v Hc Hg Hr Hv (z & -> & Hz) d [[Hgc ->]|Ha].
    + exists z, z. split_and!; [done|done|lia|lia|]. eapply get_answers; [by apply Henv|done|done|exact Hgc|done|done].
    + exfalso. destruct (adds_int_about _ _ _ Ha) as (_ & Hu & _). unfold one_update in Hu.
      destruct Hg as (Hq & _). by rewrite Hq in Hu.
  - intros n v (z & -> & Hz). exists z. split; [done|]. split; [lia|].
    replace (D * Z.of_nat (Datatypes.S n))%Z with (D * Z.of_nat n + D)%Z by lia. lia.
  - assert (Hall' : forall a c d r, call_at scripts a = Some c -> counter_call c k d -> returned x a r ->
      exists p y z, l !! p = Some a /\ vals p = VInteger y /\ vals (Datatypes.S p) = VInteger z /\ (y + d = z)%Z /\
        (0 <= d)%Z /\ responds (c_env c) (c_res c) (VInteger z) r).
    { intros a c d r Hc Hcc Hr. destruct (Hret a c r Hc) as (p & Hp & HS); [|done|].
      { destruct Hcc as [[Hg _]|Ha]; [right; by eapply gets_any|left; by exists d]. }
      destruct (HS d Hcc) as (y & z & E1 & E2 & E3 & E4 & E5). exists p, y, z. done. }
    assert (Hle : forall p q y z, p <= q <= length l -> vals p = VInteger y -> vals q = VInteger z -> (y <= z)%Z).
    { intros p q y z Hpq E1 E2. destruct (Hmono p q Hpq) as (y' & z' & F1 & F2 & F3).
      rewrite E1 in F1. rewrite E2 in F2. injection F1 as ->. injection F2 as ->. done. }
    destruct HIn as (zn & En & _ & Hzn). exists zn. split; [by rewrite Hend, En|]. split; [|split].
    + assert (D * Z.of_nat (length l) <= D * Z.of_nat (length (concat scripts)))%Z
        by (apply Z.mul_le_mono_nonneg_l; lia). lia.
    + intros a c d r Hc Hcc Hr. destruct (Hall' a c d r Hc Hcc Hr) as (p & y & z & Hp & E1 & E2 & E3 & E4 & E5).
      exists z. split; [done|]. apply lookup_lt_Some in Hp.
      pose proof (Hle 0 p z0 y ltac:(lia) Hv0 E1). pose proof (Hle (Datatypes.S p) (length l) z zn ltac:(lia) E2 En). lia.
    + intros a b c c' d d' r r' Hc Hc' Hcc Hcc' Hr Hr' Hb.
      destruct (Hall' a c d r Hc Hcc Hr) as (p & y & z & Hp & E1 & E2 & E3 & E4 & E5).
      destruct (Hall' b c' d' r' Hc' Hcc' Hr') as (q & y' & z' & Hq & F1 & F2 & F3 & F4 & F5).
      exists z, z'. split; [done|]. split; [done|]. pose proof (Hord p q a b Hp Hq Hb). apply lookup_lt_Some in Hq.
      pose proof (Hle 0 p z0 y ltac:(lia) Hv0 E1). pose proof (Hle (Datatypes.S q) (length l) z' zn ltac:(lia) F2 En).
      pose proof (Hle (Datatypes.S p) q z y' ltac:(lia) E2 F1). lia.
Qed.

Lemma grown_append v l w : append_to v l = Some w -> grown v w.
Proof.
  destruct v; cbn; try done; try (intros [= <-]; by apply prefix_app_r).
  destruct (forallb utf8_valid l); [|done]. intros [= <-]. by apply prefix_app_r.
Qed.

Lemma grown_refl v : is_Some (append_to v []) -> grown v v.
Proof. destruct v; cbn; by intros [? ?]. Qed.

Lemma grown_trans u v w : grown u v -> grown v w -> grown u w.
Proof. destruct u, v, w; cbn; try done; apply transitivity. Qed.

Lemma append_none v w : append_to v [] = Some w -> w = v.
Proof. destruct v; cbn; try done; rewrite ?app_nil_r; by intros [= <-]. Qed.

Lemma c118_log k scripts s0 t v0 sched x :
  room_for_all scripts s0 -> envs_ok scripts -> ordinary k -> st_keys s0 !! k = Some v0 -> kind v0 = t ->
  is_Some (append_to v0 []) ->
  (forall c, issued scripts c ->
     (exists l, appends c k t l /\ is_Some (append_to v0 l)) \/ ~ may_write (c_req c) k) ->
  sys_run sched (begin scripts s0) = Some x ->
  exists vn, st_keys x.2 !! k = Some vn /\
  (forall a c l r, call_at scripts a = Some c -> log_call c k t l -> returned x a r ->
     exists u v, responds (c_env c) (c_res c) v r /\ grown v0 u /\ append_to u l = Some v /\ grown v vn) /\
  (forall a b c c' l l' r r', call_at scripts a = Some c -> call_at scripts b = Some c' ->
     log_call c k t l -> log_call c' k t l' -> returned x a r -> returned x b r' ->
     before scripts s0 sched a b ->
     exists u v u' w, responds (c_env c) (c_res c) v r /\ responds (c_env c') (c_res c') w r' /\
       grown v0 u /\ append_to u l = Some v /\ grown v u' /\ append_to u' l' = Some w /\ grown w vn).
Proof.
  intros Hroom Henv Hk H0 Hkind Hap Hall Hx.
  set (I := fun (_ : nat) v => kind v = t).
  assert (Hsame : forall v l, kind v = t -> is_Some (append_to v0 l) -> is_Some (append_to v l)).
  { intros v l Hv Hl. eapply append_to_same; [|exact Hl]. by rewrite Hv. }
  set (Sp := fun (c : call) (v w : value) (r : cres) => forall l, log_call c k t l ->
    append_to v l = Some w /\ responds (c_env c) (c_res c) w r).
  destruct (forward k scripts s0 sched x (fun c => exists l, appends c k t l /\ is_Some (append_to v0 l)) I grown Sp v0)
    as (l & vals & Hv0 & Hend & HIn & Hll & Hmono & Hret & Hord); try done.
  - intros n v Hv. apply grown_refl. by apply Hsame.
  - apply grown_trans.
  - intros c Hc (l & Ha & _). pose proof Ha as (Hcm & Hkt & _). split_and!.
    + split; [by eapply asks_arg0|]. unfold one_update. rewrite Hcm, Hkt. split; [done|by right].
    + unfold one_update. by rewrite Hcm, Hkt.
    + split; [by rewrite Hcm|]. left. by eapply asks_arg0.
  - intros c s n v Hc (l & Ha & Hl) Hr Hv HI Hn dd. subst dd.
    destruct (Hsame v l HI Hl) as [w Hw].
    destruct (c24_append (c_env c) s (c_req c) (c_res c) (Some t) k l t v w) as [E1 E2]; try done.
    { by apply Henv. }
    { by left. }
    { split; [done|by left]. }
    exists w. split_and!.
    + by rewrite E2, lookup_insert.
    + unfold I in *. rewrite <-HI. by eapply append_to_kind.
    + by eapply grown_append.
    + intros l' [[(kt & la & (Hq & _) & _) _]|Ha'].
      * destruct Ha as (Ha & _). by rewrite Ha in Hq.
      * destruct Ha as (_ & _ & Ha), Ha' as (_ & _ & Ha'). pose proof (carries_unique _ _ _ Ha Ha') as [= <-]. done.
  - intros c s n v Hc Hg Hr Hv HI l [[Hgc ->]|Ha].
    + destruct (Hsame v [] HI Hap) as [w Hw]. rewrite Hw, (append_none _ _ Hw). split; [done|].
      eapply get_answers; [by apply Henv|done|done|exact Hgc|done|done].
    + exfalso. destruct Ha as (Ha & _), Hg as (Hg & _). by rewrite Ha in Hg.
  - assert (Hall' : forall a c la r, call_at scripts a = Some c -> log_call c k t la -> returned x a r ->
      exists p, l !! p = Some a /\ append_to (vals p) la = Some (vals (Datatypes.S p)) /\
        responds (c_env c) (c_res c) (vals (Datatypes.S p)) r).
    { intros a c la r Hc Hcc Hr. destruct (Hret a c r Hc) as (p & Hp & HS); [|done|].
      { destruct Hcc as [[Hg _]|Ha]; [right; by eapply gets_any|left].
        destruct (Hall c ltac:(by exists a)) as [?|Hn]; [done|]. exfalso. apply Hn.
        pose proof Ha as (Hcm & _). split; [by rewrite Hcm|]. left. by eapply asks_arg0. }
      exists p. split; [done|]. by apply HS. }
    exists (vals (length l)). split; [done|]. split.
    + intros a c la r Hc Hcc Hr. destruct (Hall' a c la r Hc Hcc Hr) as (p & Hp & E1 & E2).
      apply lookup_lt_Some in Hp. exists (vals p), (vals (Datatypes.S p)). split_and!; try done.
      * rewrite <-Hv0. apply Hmono. lia.
      * apply Hmono. lia.
    + intros a b c c' la l' r r' Hc Hc' Hcc Hcc' Hr Hr' Hb.
      destruct (Hall' a c la r Hc Hcc Hr) as (p & Hp & E1 & E2).
      destruct (Hall' b c' l' r' Hc' Hcc' Hr') as (q & Hq & F1 & F2).
      exists (vals p), (vals (Datatypes.S p)), (vals q), (vals (Datatypes.S q)).
      pose proof (Hord p q a b Hp Hq Hb). apply lookup_lt_Some in Hq. split_and!; try done.
      * rewrite <-Hv0. apply Hmono. lia.
      * apply Hmono. lia.
      * apply Hmono. lia.
Qed.
