(** What a call that reads was told was so while it ran: proofs of C123. *)
From Verif Require Import Locks LockSpec LockFacts LockScripts LockScriptSpec LockScriptFacts.
From Verif Require Import Bytes BytesFacts Utf8 Float64 Value CommandId Request RequestSpec RequestFacts Response RespContext WireSpec
  EngineSpec Metrics Prog ProgFacts Commands HistorySpec EngineFacts EngineProps Concurrent ConcSpec ConcFacts Scripts LinSpec
  LinFacts KeyLinSpec KeyLin KeyLinFacts IsoSpec IsoFacts ScriptInv MomentSpec MomentFacts
  Client ClientSpec ClientFacts ClientProps MemTasks MemTaskSpec MemTaskFacts MemRaceSpec MemRaceFacts MemForwardSpec MemForward SeenSpec.
From stdpp Require Import gmap list.
From Coq Require Import NArith ZArith Lia.
From Coq Require Import ZifyBool ZifyNat ZifyN.

(** ** Programs that only read *)

(** Whatever the program is told of the keys that is so in one of [M], what it returns satisfies [R]. *)
Fixpoint learns (M : bytes -> keyspace -> Prop) (R : cres -> Prop) (p : prog) : Prop :=
  match p with
  | PRet r => R r
  | PContains k c =>
    forall d, M k d -> learns M R (c (match d !! k with Some _ => true | None => false end))
  | PGet k c => forall d, M k d -> learns M R (c (d !! k))
  | PCounter _ c => forall v, learns M R (c v)
  | PIncr _ _ c => learns M R c
  | PInsert _ _ _ | PRemove _ _ | PKoi _ _ _ _ | PKoiIns _ _ _ _ => False
  end.

Lemma learns_pbind M (R R' : cres -> Prop) p f :
  learns M R p -> (forall r, R r -> learns M R' (f r)) -> learns M R' (pbind p f).
Proof.
  intros Hp Hf. induction p as [r|k c IH|k c IH|k v c IH|k c IH|k d u c IH|k d u c IH|m c IH|d m c IH];
    cbn in *; try done; eauto.
Qed.

Lemma learns_dispatch M (R : cres -> Prop) e req res :
  learns M R (command_prog e req res) -> learns M R (dispatch_prog e req res).
Proof.
  intros H. unfold dispatch_prog. eapply learns_pbind; [exact H|]. by intros [] ?.
Qed.

(** ** The counters have room *)

Lemma incr_room scripts s0 sched y i cl d m p : room_for_all scripts s0 ->
  sys_run sched (begin scripts s0) = Some y -> y.1 !! i = Some cl -> cl_now cl = Some (PIncr d m p) ->
  forall m, (count y.2 m + 1 < u64_mod)%N.
Proof.
  intros Hroom Hr Hi Hnow m'.
  destruct (scripts_inv scripts s0 Hroom (fun _ _ => True)) with (sched := sched) (x := y)
    as (vs & Hl & Hlv & Hsh & Hcnt & _); try done.
  assert (exists sc, scripts !! i = Some sc) as [sc Hsc].
  { apply lookup_lt_is_Some. rewrite <-Hl. by eapply lookup_lt_Some. }
  assert (exists v, vs !! i = Some v) as [[dn w] Hv].
  { apply lookup_lt_is_Some. rewrite Hlv, <-Hl. by eapply lookup_lt_Some. }
  pose proof (Hsh _ _ _ _ Hi Hsc Hv) as (Hd & Ht & Hle & Hw). cbn [fst snd] in Hd, Ht, Hle, Hw.
  destruct w as [x|]; [|congruence]. destruct Hw as (c & Hc & Hn & Hq & _).
  destruct x as [q|r]; [|cbn in Hn; congruence].
  pose proof (lookup_lt_Some _ _ _ Hc) as Hlt. cbn [fst snd] in Hlt.
  assert (Hv' := vcredit_insert vs i _ (dn, Some (TDone CPanic)) Hv).
  assert (nsum (map vcredit (<[i := (dn, Some (TDone CPanic))]> vs)) <= lenN (concat scripts))%N as Htot.
  { apply (vcredit_total scripts); [by rewrite insert_length|]. intros j vj scj Hj Hscj.
    destruct (decide (i = j)) as [<-|Hne].
    - rewrite list_lookup_insert in Hj by (by eapply lookup_lt_Some). injection Hj as <-.
      assert (scj = sc) as -> by congruence. unfold vcredit. cbn [fst snd]. lia.
    - rewrite list_lookup_insert_ne in Hj by done.
      assert (exists clj, y.1 !! j = Some clj) as [clj Hclj].
      { apply lookup_lt_is_Some. rewrite Hl. by eapply lookup_lt_Some. }
      destruct (Hsh _ _ _ _ Hclj Hscj Hj) as (_ & _ & Hlej & _).
      unfold vcredit, ahead_of in *. destruct (vj.2) as [[]|]; lia. }
  unfold vcredit at 2 4 in Hv'. cbn [fst snd] in Hv'.
  specialize (Hcnt m'). specialize (Hroom m'). change u64_mod with (2 ^ 64)%N. lia.
Qed.

(** ** One call *)

Lemma guard_unlocked sh x y i cl p k w : sinv sh x y -> x.1 !! i = Some cl -> lc_now cl = Some (TGuard p) ->
  needs sh p = Some (KeyLock (key_shard sh k), w) -> w = false -> unlocked sh x k.
Proof.
  intros [_ Hinv] Hi Hnow Hn -> cl' Hcl' Hh. apply elem_of_list_lookup_1 in Hcl' as [j Hj].
  assert (Ht : lc_thread cl = TGuard p) by (unfold lc_thread; by rewrite Hnow).
  destruct (decide (i = j)) as [<-|Hne].
  - rewrite Hi in Hj. injection Hj as <-. rewrite Ht in Hh. cbn in Hh. congruence.
  - assert (Hn' : holding sh (lc_thread cl) = Some (KeyLock (key_shard sh k), false)) by (by rewrite Ht).
    pose proof (li_excl _ _ _ _ _ Hinv i j _ _ _ _ Hne (map_lookup lc_thread _ _ _ Hi) (map_lookup lc_thread _ _ _ Hj) Hn' Hh) as H.
    unfold in_the_way in H. cbn in H.
    by rewrite bool_decide_true in H.
Qed.

Section one.
  Context (sh : shards) (scripts : list (list call)) (s0 : store) (sched : list (nat * list value)).
  Context (b : nat * nat) (c : call).
  Context (M : bytes -> keyspace -> Prop) (R : cres -> Prop).
  Hypothesis Hroom : room_for_all scripts s0.
  Hypothesis Hc : call_at scripts b = Some c.
  Hypothesis HM : forall k y, seen sh scripts s0 sched b k y -> M k (st_keys y.2).
  Hypothesis HR : learns M R (dispatch_prog (c_env c) (c_req c) (c_res c)).

  Definition heard (x : lsystem) : Prop :=
    forall cl, x.1 !! b.1 = Some cl ->
    (exists sc, scripts !! b.1 = Some sc /\ lc_todo cl = drop (lbegun cl) sc) /\
    (length (lc_done cl) = b.2 -> forall t, lc_now cl = Some t -> learns M R (erase t)) /\
    (forall r, lc_done cl !! b.2 = Some r -> R r).

  Lemma heard_step n x x1 i mid : n <= length sched ->
    lsys_run sh (take n sched) (lbegin scripts s0) = Some x ->
    lsys_step sh i mid x = Some x1 -> heard x -> heard x1.
  Proof.
    intros Hn Hx Hs Hh.
    destruct (lsys_run_sim _ _ _ _ _ Hx) as (ps & f & _ & _ & _ & Hsim).
    destruct (Hsim (length (take n sched)) x) as (y & Hy & Hinv); [done|by rewrite firstn_all|].
    destruct x as [lcs s]. unfold lsys_step in Hs. cbn [fst snd] in Hs.
    destruct (lcs !! i) as [cl|] eqn:Hcl; [|done].
    pose proof (lookup_lt_Some _ _ _ Hcl) as Hlt.
    assert (Hgo : forall cl' s', (i = b.1 ->
      (exists sc, scripts !! b.1 = Some sc /\ lc_todo cl' = drop (lbegun cl') sc) /\
      (length (lc_done cl') = b.2 -> forall t, lc_now cl' = Some t -> learns M R (erase t)) /\
      (forall r, lc_done cl' !! b.2 = Some r -> R r)) -> heard (<[i := cl']> lcs, s')).
    { intros cl' s' H cl0 H0. cbn [fst] in H0. destruct (decide (i = b.1)) as [E|Hne].
      - rewrite <-E, list_lookup_insert in H0 by done. injection H0 as <-. by apply H.
      - rewrite list_lookup_insert_ne in H0 by done. by apply Hh. }
    destruct (lc_now cl) as [t|] eqn:Hnow.
    2: { destruct (lc_todo cl) as [|d rest] eqn:Htodo; [done|]. injection Hs as <-. apply Hgo. intros ->.
      destruct (Hh cl Hcl) as ((sc & Hsc & Hd) & _ & Hr). unfold lbegun in Hd. rewrite Hnow, Nat.add_0_r, Htodo in Hd.
      symmetry in Hd. assert (Hat : sc !! length (lc_done cl) = Some d).
      { pose proof (lookup_drop sc (length (lc_done cl)) 0) as E. rewrite Hd in E. cbn in E. by rewrite Nat.add_0_r in E. }
      split; [|split; [|exact Hr]].
      - exists sc. split; [done|]. unfold lbegun. cbn [lc_done lc_now lc_todo].
        rewrite (drop_S _ d) in Hd by done. injection Hd as Hd. rewrite <-Hd. f_equal. lia.
      - cbn [lc_done lc_now]. intros E t [= <-]. cbn [erase].
        assert (d = c) as -> by (unfold call_at in Hc; rewrite Hsc in Hc; cbn in Hc; rewrite <-E in Hc; congruence).
        exact HR. }
    assert (Hrun : i = b.1 -> length (lc_done cl) = b.2 -> forall k, unlocked sh (lcs, s) k -> M k (st_keys s)).
    { intros -> E k Hu. apply (HM k (lcs, s)). exists n. split_and!; [done|done| |done].
      exists cl. cbn [fst]. rewrite Hnow. done. }
    assert (Hret : (exists r, t = TIdle (PRet r)) \/ forall r, t <> TIdle (PRet r)).
    { destruct t as [[]| | |]; try (right; done). left. by eexists. }
    destruct Hret as [[r ->]|Hnr].
    - injection Hs as <-. apply Hgo. intros ->. destruct (Hh cl Hcl) as ((sc & Hsc & Hd) & Hl & Hr). split; [|split].
      + exists sc. split; [done|]. unfold lbegun in *. rewrite Hnow in Hd. cbn [lc_done lc_now lc_todo].
        rewrite Hd, app_length. cbn. by rewrite Nat.add_0_r.
      + done.
      + cbn [lc_done]. intros r' H. apply lookup_app_Some in H as [H|[Hle H]]; [by apply Hr|].
        apply list_lookup_singleton_Some in H as [H <-].
        assert (E : length (lc_done cl) = b.2) by lia. exact (Hl E _ Hnow).
    - assert (Hs' : match lact sh t s mid with
           | Some (t', s) => Some (<[i := LClient (lc_done cl) (Some t') (lc_todo cl)]> lcs, s)
           | None => None end = Some x1).
      { destruct t as [[r| | | | | | | |]| | |]; try (by destruct (Hnr r));
          match type of Hs with (if ?c then _ else _) = _ => destruct c; [exact Hs|done] | _ => exact Hs end. }
      clear Hs. destruct (lact sh t s mid) as [[t' s']|] eqn:Ha; [|done]. injection Hs' as <-. apply Hgo. intros ->.
      destruct (Hh cl Hcl) as ((sc & Hsc & Hd) & Hl & Hr). split; [|split].
      + exists sc. split; [done|]. unfold lbegun in *. by rewrite Hnow in Hd.
      + cbn [lc_done lc_now]. intros E t0 [= <-]. specialize (Hl E _ Hnow).
        specialize (Hrun eq_refl E).
        destruct t as [p|p|p v mi|p g]; cbn [erase] in Hl.
        * cbn in Ha. destruct (needs sh p); [|done]. by injection Ha as <- <-.
        * cbn [lact] in Ha. destruct p as [r|k q|k q|k v q|k q|k d u q|k d u q|m q|d m q]; cbn in Hl; try done.
          -- cbn in Ha. injection Ha as <- <-. cbn [erase]. apply Hl, Hrun.
             eapply (guard_unlocked sh _ _ b.1 cl _ k false Hinv); [done|done|done|done].
          -- cbn in Ha. injection Ha as <- <-. cbn [erase]. apply Hl, Hrun.
             eapply (guard_unlocked sh _ _ b.1 cl _ k false Hinv); [done|done|done|done].
          -- cbn in Ha. injection Ha as <- <-. cbn [erase]. apply Hl.
          -- cbn in Ha. assert (Hrm : forall m, (count y.2 m + 1 < u64_mod)%N).
             { destruct Hinv as [Hy1 _]. cbn [fst] in Hy1.
               eapply (incr_room scripts s0 _ y b.1 (eclient cl) d m q Hroom Hy); [rewrite Hy1; by apply map_lookup|].
               unfold eclient. cbn. by rewrite Hnow. }
             rewrite counters_inc_at in Ha.
             2: { destruct Hinv as [_ Hinv]. pose proof (li_counters _ _ _ _ _ Hinv) as Hcs. cbn [snd] in Hcs.
               specialize (Hrm m). unfold count in Hrm. by rewrite <-Hcs in Hrm. }
             injection Ha as <- <-. exact Hl.
        * destruct p; try done.
        * cbn in Ha. by injection Ha as <- <-.
      + exact Hr.
  Qed.

  Lemma heard_run n x : n <= length sched ->
    lsys_run sh (take n sched) (lbegin scripts s0) = Some x -> heard x.
  Proof.
    revert x. induction n as [|n IH]; intros x Hn Hx.
    - cbn in Hx. injection Hx as <-. intros cl Hcl. cbn in Hcl.
      change (map ?f scripts) with (f <$> scripts) in Hcl. apply list_lookup_fmap_inv in Hcl as (sc & -> & Hsc).
      cbn. split; [by exists sc|]. split; [done|]. intros r Hr. by rewrite lookup_nil in Hr.
    - destruct (lookup_lt_is_Some_2 sched n) as [[i mid] Him]; [lia|].
      rewrite (take_S_r _ _ _ Him), lsys_run_app in Hx.
      destruct (lsys_run sh (take n sched) (lbegin scripts s0)) as [z|] eqn:Hz; [|done]. cbn in Hx.
      destruct (lsys_step sh i mid z) as [z1|] eqn:Hs; [|done]. injection Hx as <-.
      eapply (heard_step n z); [lia|done|done|]. apply IH; [lia|done].
  Qed.
End one.

Lemma learned (M : bytes -> keyspace -> Prop) (R : cres -> Prop) sh scripts s0 sched x b c r :
  room_for_all scripts s0 -> call_at scripts b = Some c ->
  (forall k y, seen sh scripts s0 sched b k y -> M k (st_keys y.2)) ->
  learns M R (command_prog (c_env c) (c_req c) (c_res c)) ->
  lsys_run sh sched (lbegin scripts s0) = Some x -> lreturned x b r -> R r.
Proof.
  intros Hroom Hc HM HR Hx (cl & Hcl & Hr).
  eapply (heard_run sh scripts s0 sched b c M R Hroom Hc HM (learns_dispatch _ _ _ _ _ HR) (length sched) x);
    [done|by rewrite firstn_all|done|done].
Qed.

(** ** Commands that read one key *)

Lemma data_room y : room (data_of y).
Proof. intros m. unfold count, data_of. cbn [st_counters]. rewrite lookup_empty. cbn. lia. Qed.

Lemma alone_run y e req res : (dispatch e (data_of y) req res).2 = (run (command_prog e req res) (data_of y)).2.
Proof. apply dispatch_cmd, data_room. Qed.

Lemma learns_variant (M : bytes -> keyspace -> Prop) (R : cres -> Prop) {A} e res k (as_ : value -> option A) cont :
  ((forall p, guarded e k p = PRet CPanic) -> R CPanic) ->
  ((forall p, guarded e k p = p) -> forall d, M k d -> R (variant_res res as_ cont (d !! k))) ->
  learns M R (read_variant e res k as_ cont).
Proof.
  intros Hp Hr. destruct (guarded_cases e k) as [Hg|Hg].
  - unfold read_variant, key_ref. rewrite Hg. by apply Hp.
  - destruct (variant_prog e res k as_ cont Hg) as (f & -> & Hf). cbn. intros d Hd. rewrite Hf. by apply Hr.
Qed.

Lemma run_variant {A} e res k (as_ : value -> option A) cont s :
  (forall p, guarded e k p = p) ->
  (run (read_variant e res k as_ cont) s).2 = variant_res res as_ cont (st_keys s !! k).
Proof.
  intros Hg. destruct (variant_prog e res k as_ cont Hg) as (f & -> & Hf). cbn. by rewrite Hf.
Qed.

Lemma run_variant_panics {A} e res k (as_ : value -> option A) cont s :
  (forall p, guarded e k p = PRet CPanic) -> (run (read_variant e res k as_ cont) s).2 = CPanic.
Proof. intros Hg. unfold read_variant, key_ref. by rewrite Hg. Qed.

Lemma c123_one sh scripts s0 sched x b c k r :
  room_for_all scripts s0 -> lsys_run sh sched (lbegin scripts s0) = Some x -> call_at scripts b = Some c ->
  reads_one (r_command (c_req c)) -> arg (c_req c) 0 = Some k -> lreturned x b r ->
  told_one sh scripts s0 sched b c k r.
Proof.
  intros Hroom Hx Hc Hcmd Hk Hr.
  set (M := fun (k : bytes) (d : keyspace) => exists y, seen sh scripts s0 sched b k y /\ st_keys y.2 = d).
  eapply (learned M _ sh scripts s0 sched x b c r); [done|done| | |done|done].
  { intros k' y Hy. by exists y. }
  assert (Hkey : key (c_req c) = Some k).
  { unfold key. by destruct Hcmd as [->|[->|[->| ->]]]. }
  assert (Hany : forall r, command_prog (c_env c) (c_req c) (c_res c) = PRet r ->
    told_one sh scripts s0 sched b c k r).
  { intros r' E. right. right. intros s Hs. rewrite (proj1 (dispatch_cmd _ s _ _ Hs)). by rewrite E. }
  assert (Hone : forall f g, command_prog (c_env c) (c_req c) (c_res c) = PGet k f -> (forall v, f v = PRet (g v)) ->
    learns M (told_one sh scripts s0 sched b c k) (command_prog (c_env c) (c_req c) (c_res c))).
  { intros f g E Hf. rewrite E. cbn. intros d (y & Hy & <-). rewrite Hf. left. exists y. split; [done|].
    rewrite alone_run, E. cbn. by rewrite Hf. }
  assert (Hvar : forall A (as_ : value -> option A) cont,
    command_prog (c_env c) (c_req c) (c_res c) = read_variant (c_env c) (c_res c) k as_ cont ->
    learns M (told_one sh scripts s0 sched b c k) (command_prog (c_env c) (c_req c) (c_res c))).
  { intros A as_ cont E. rewrite E. apply learns_variant.
    - intros Hg. right. right. intros s Hs. rewrite (proj1 (dispatch_cmd _ s _ _ Hs)), E. symmetry. by apply run_variant_panics.
    - intros Hg d (y & Hy & <-). left. exists y. split; [done|]. rewrite alone_run, E. symmetry.
      by rewrite run_variant. }
  assert (Htwo : forall t0 (g : key_type -> option value -> cres) (cont : key_type -> prog),
    r_command (c_req c) = CLength \/ r_command (c_req c) = CKeys -> r_key_type (c_req c) = None ->
    (forall t, (exists r, cont t = PRet r) \/
       (exists f, cont t = PGet k f /\ forall v, f v = PRet (g t v)) /\
       (exists f, cont t0 = PGet k f /\ forall v, f v = PRet (g t0 v)) /\ g t None = g t0 None /\
       forall v, kind v <> t -> g t (Some v) = CErr EKeyTypeDifferent (c_res c)) ->
    command_prog (c_env c) (c_req c) (c_res c) =
      PGet k (fun v => cont (match v with Some v => kind v | None => t0 end)) ->
    learns M (told_one sh scripts s0 sched b c k) (command_prog (c_env c) (c_req c) (c_res c))).
  { intros t0 g cont Hlk Hnt Hcont E. rewrite E. cbn. intros d (y & Hy & <-).
    set (t1 := match st_keys y.2 !! k with Some v => kind v | None => t0 end).
    destruct (Hcont t1) as [[r' Er]|((f & Er & Hf) & (f0 & E0 & Hf0) & Hnone & Hdiff)]; rewrite Er; cbn.
    - left. exists y. split; [done|]. rewrite alone_run, E. cbn [run data_of st_keys]. fold t1. by rewrite Er.
    - intros d (z & Hz & <-). rewrite Hf. cbn.
      assert (Halone : (forall v, st_keys z.2 !! k = Some v -> kind v = t1) ->
        told_one sh scripts s0 sched b c k (g t1 (st_keys z.2 !! k))).
      { intros Hv. left. exists z. split; [done|]. rewrite alone_run, E. cbn [run data_of st_keys].
        destruct (st_keys z.2 !! k) as [v|] eqn:Ez.
        - rewrite (Hv v eq_refl), Er. cbn [run data_of st_keys]. by rewrite Ez, Hf.
        - rewrite E0. cbn [run data_of st_keys]. by rewrite Ez, Hf0, Hnone. }
      destruct (st_keys z.2 !! k) as [v|] eqn:Ez; [|by apply Halone].
      destruct (decide (kind v = t1)) as [Ht1|Hne]; [apply Halone; by intros ? [= <-]|].
      right. left. rewrite (Hdiff v Hne). split_and!; [done|done|done|]. exists y, z, v. split_and!; [done|done|done|].
      unfold other_type. intros Ho. destruct (st_keys y.2 !! k) as [w|]; [|done]. cbn in Ho. injection Ho as Ho.
      by destruct Hne. }
  destruct Hcmd as [E|[E|[E|E]]].
  - unfold command_prog in Hany, Hone |- *. rewrite E in Hany, Hone |- *. unfold cmd_get in *. rewrite Hkey in *.
    destruct (guarded_cases (c_env c) k) as [Hg|Hg]; unfold key_ref in *; rewrite Hg in *.
    + cbn. by apply Hany.
    + eapply (Hone _ (fun v => match v with None => _ | Some v => match r_key_type (c_req c) with Some kt =>
        if decide (kind v = kt) then _ else _ | None => _ end end)); [done|].
      intros [v|]; [|done]. destruct (r_key_type (c_req c)) as [kt|]; [|done]. by destruct (decide (kind v = kt)).
  - unfold command_prog in Hany, Hone |- *. rewrite E in Hany, Hone |- *. unfold cmd_type in *. rewrite Hkey in *.
    destruct (r_key_type (c_req c)) as [kt|] eqn:Et; [cbn; by apply Hany|].
    eapply (Hone _ (fun v => match v with None => _ | Some v => _ v end)); [done|]. intros [v|]; [|done].
    instantiate (1 := fun v => _). reflexivity.
  - unfold command_prog in Hany, Hone, Hvar, Htwo |- *. rewrite E in Hany, Hone, Hvar, Htwo |- *. unfold cmd_length in *. rewrite Hkey in *.
    unfold resolve_type in *.
    destruct (r_key_type (c_req c)) as [kt|] eqn:Et.
    + destruct kt; try (by eapply Hvar); cbn; by apply Hany.
    + eapply (Htwo KTBytes (len_res (c_res c)) (len_cont (c_env c) (c_res c) k)); [by left|done| |done].
      intros t. destruct (guarded_cases (c_env c) k) as [Hg|Hg].
      * left. destruct t; cbn; unfold read_variant, key_ref; rewrite ?Hg; by eexists.
      * destruct t; try (left; by eexists); right; (split; [by apply variant_prog|]);
          (split; [by apply variant_prog|]); (split; [done|]); by intros [].
  - unfold command_prog in Hany, Hone, Hvar, Htwo |- *. rewrite E in Hany, Hone, Hvar, Htwo |- *. unfold cmd_keys in *. rewrite Hkey in *.
    unfold resolve_type in *.
    destruct (r_key_type (c_req c)) as [kt|] eqn:Et.
    + destruct kt; try (by eapply Hvar); cbn; by apply Hany.
    + eapply (Htwo KTMap (keys_res (c_env c) (c_res c)) (keys_cont (c_env c) (c_res c) k)); [by right|done| |done].
      intros t. destruct (guarded_cases (c_env c) k) as [Hg|Hg].
      * left. destruct t; cbn; unfold read_variant, key_ref; rewrite ?Hg; by eexists.
      * destruct t; try (left; by eexists); right; (split; [by apply variant_prog|]);
          (split; [by apply variant_prog|]); (split; [done|]); by intros [].
Qed.

(** ** Exists and Is *)

Lemma learns_all_there (M : bytes -> keyspace -> Prop) (R : cres -> Prop) t (f : bool -> cres) ks :
  ((forall k, k ∈ ks -> exists d, M k d /\ is_there t (d !! k) = true) -> R (f true)) ->
  (forall k d, k ∈ ks -> M k d -> is_there t (d !! k) = false -> R (f false)) ->
  learns M R (all_there t ks (fun b => PRet (f b))).
Proof.
  induction ks as [|k ks IH]; intros Ht Hf.
  - assert (E : all_there t [] (fun b => PRet (f b)) = PRet (f true)) by (by destruct t). rewrite E. cbn.
    apply Ht. by intros k ?%elem_of_nil.
  - assert (Hgo : forall d, M k d -> learns M R (if is_there t (d !! k) then all_there t ks (fun b => PRet (f b)) else PRet (f false))).
    { intros d Hd. destruct (is_there t (d !! k)) eqn:E.
      - apply IH.
        + intros H. apply Ht. intros k' [->|Hk]%elem_of_cons; [by exists d|by apply H].
        + intros k' d' Hk. apply Hf. by right.
      - cbn. eapply Hf; [left|done|done]. }
    destruct t as [t|]; cbn; intros d Hd; specialize (Hgo d Hd); unfold is_there in Hgo; by destruct (d !! k).
Qed.

Lemma c123_question sh scripts s0 sched x b c t ks r :
  room_for_all scripts s0 -> lsys_run sh sched (lbegin scripts s0) = Some x -> call_at scripts b = Some c ->
  question (c_req c) t ks -> ks <> [] -> lreturned x b r ->
  (responds (c_env c) (c_res c) (VBoolean true) r /\
   forall k, k ∈ ks -> exists y, seen sh scripts s0 sched b k y /\ there t k y.2) \/
  (responds (c_env c) (c_res c) (VBoolean false) r /\
   exists k y, k ∈ ks /\ seen sh scripts s0 sched b k y /\ ~ there t k y.2).
Proof.
  intros Hroom Hx Hc Hq Hne Hr.
  set (M := fun (k : bytes) (d : keyspace) => exists y, seen sh scripts s0 sched b k y /\ st_keys y.2 = d).
  revert Hr. eapply (learned M (fun r => _) sh scripts s0 sched x b c r); [done|done| | |done].
  { intros k' y Hy. by exists y. }
  destruct (question_prog (c_env c) (c_req c) (c_res c) t ks Hq) as [[? _]|[_ ->]]; [done|].
  apply learns_all_there.
  - intros H. left. split; [by apply responds_bool|]. intros k Hk. destruct (H k Hk) as (d & (y & Hy & <-) & E).
    exists y. split; [done|]. by apply is_there_spec.
  - intros k d Hk (y & Hy & <-) E. right. split; [by apply responds_bool|]. exists k, y. split_and!; [done|done|].
    rewrite <-is_there_spec. by rewrite E.
Qed.

(** ** Tasks that share a memory client *)

Lemma seen_tasks sh tasks s0 sched a b k y : same_place tasks a b ->
  seen sh (map dispatches tasks) s0 sched b k y -> task_seen sh tasks s0 sched a k y.
Proof.
  intros Hs (n & Hn & Hy & (cl & Hcl & Hd & Hnow) & Hu). exists n. split_and!; [done|done| | |done].
  - intros Ha. destruct (ahead_not_begun _ _ _ _ Hs Ha) as (cl' & Hcl' & Hb).
    assert (cl' = cl) as -> by congruence. unfold lbegun in Hb. destruct (lc_now cl); [lia|done].
  - intros r Hg. destruct (got_dispatch _ _ _ _ _ Hs Hg) as (q & cl' & Hcl' & Hq).
    assert (cl' = cl) as -> by congruence. apply lookup_lt_Some in Hq. lia.
Qed.

Lemma mem_alone e s c bl : build e c = ROk bl ->
  (mem_call e s c).2 = finish e c (dispatch e s (into_request bl) []).2.
Proof. intros Hb. rewrite mem_call_phases, Hb. by destruct (dispatch e s (into_request bl) []). Qed.

Lemma reads_one_asks e c k bl : env_ok e -> reads_one_key c k -> build e c = ROk bl ->
  exists cmd kt, asks (into_request bl) cmd kt [k] /\ reads_one cmd /\
    (kt = None -> cmd = CLength \/ cmd = CKeys -> c = KLength k None \/ c = KKeys k).
Proof.
  intros He Hc Hb. assert (Hs : (sends c <= 255)%N) by (by destruct Hc as [->|[[t ->]|[->|[[t ->]| ->]]]]; cbn; lia).
  pose proof (build_asks e c bl He Hs Hb) as Ha. unfold reads_one.
  destruct Hc as [->|[[t ->]|[->|[[t ->]| ->]]]]; eexists _, _; (split; [exact Ha|]); (split; [by auto|]); intros E [?|?]; try done; subst; auto.
Qed.

Lemma c123_tasks sh tasks s0 sched x a e c k r :
  sendable tasks -> tasks_fit tasks s0 -> at_work sh tasks s0 sched = Some x ->
  task_call tasks a = Some (e, c) -> reads_one_key c k -> k <> [] -> got tasks x a r ->
  (exists y, task_seen sh tasks s0 sched a k y /\ r = (mem_call e (data_of y) c).2) \/
  ((c = KLength k None \/ c = KKeys k) /\ r = RErr (CERunningCommand EKeyTypeDifferent) /\
   exists y z v, task_seen sh tasks s0 sched a k y /\ task_seen sh tasks s0 sched a k z /\
     st_keys z.2 !! k = Some v /\ other_type (st_keys y.2 !! k) v) \/
  (forall s, room s -> r = (mem_call e s c).2).
Proof.
  intros Hsend Hfit Hx Hc Hk Hne Hg. assert (Hm : made_by_one tasks e c) by by exists a.
  destruct (Hsend _ _ Hm) as [He Hl].
  pose proof (got_cases _ _ _ _ _ _ Hsend Hc Hg) as H.
  assert (Hr : refused c = None).
  { apply nonempty in Hne. by destruct Hk as [->|[[t ->]|[->|[[t ->]| ->]]]]; cbn; rewrite Hne. }
  rewrite Hr in H. destruct H as (b & bl & q & Hs & Hb & Hd & Hq & ->).
  destruct (reads_one_asks e c k bl He Hk Hb) as (cmd & kt & (Hcmd & Hkt & Hargs) & Hro & Hun).
  assert (Hk0 : arg (into_request bl) 0 = Some k) by (by rewrite (carried_arg _ _ _ Hargs)).
  rewrite <-Hcmd in Hro.
  destruct (c123_one sh (map dispatches tasks) s0 sched x b _ k q (fit_room _ _ Hfit) Hx Hd Hro Hk0 Hq)
    as [(y & Hy & ->)|[(Ht & Hc2 & -> & y & z & v & Hy & Hz & Hv & Ho)|H]]; cbn [c_env c_req c_res] in *.
  - left. exists y. split; [by eapply seen_tasks|]. by rewrite (mem_alone _ _ _ _ Hb).
  - right. left. rewrite Hkt in Ht. rewrite Hcmd in Hc2. split; [by apply Hun|]. split; [done|].
    exists y, z, v. split_and!; try done; by eapply seen_tasks.
  - right. right. intros s Hs0. by rewrite (mem_alone _ _ _ _ Hb), <-H.
Qed.

Lemma c123_tasks_question sh tasks s0 sched x a e c t ks r :
  sendable tasks -> tasks_fit tasks s0 -> at_work sh tasks s0 sched = Some x ->
  task_call tasks a = Some (e, c) -> asks_whether c t ks -> ks <> [] -> [] ∉ ks -> got tasks x a r ->
  (r = ROk (RpBool true) /\ forall k, k ∈ ks -> exists y, task_seen sh tasks s0 sched a k y /\ there t k y.2) \/
  (r = ROk (RpBool false) /\ exists k y, k ∈ ks /\ task_seen sh tasks s0 sched a k y /\ ~ there t k y.2).
Proof.
  intros Hsend Hfit Hx Hc Hk Hks Hne Hg. assert (Hm : made_by_one tasks e c) by by exists a.
  destruct (Hsend _ _ Hm) as [He Hl].
  pose proof (got_cases _ _ _ _ _ _ Hsend Hc Hg) as H.
  assert (Hr : refused c = None).
  { assert (Hex : existsb is_empty ks = false).
    { apply not_true_iff_false. intros Hx0. apply existsb_exists in Hx0 as (k & Hin & Hkk).
      apply Hne. destruct k; [by apply elem_of_list_In|done]. }
    unfold asks_whether in Hk. destruct t; subst c; cbn; by rewrite Hex. }
  rewrite Hr in H. destruct H as (b & bl & q & Hs & Hb & Hd & Hq & ->).
  pose proof (build_asks e c bl He Hl Hb) as Ha.
  assert (Hqn : question (into_request bl) t ks).
  { unfold asks_whether in Hk. destruct t; subst c; exact Ha. }
  assert (Hfin : forall w, responds e [] (VBoolean w) q -> finish e c q = ROk (RpBool w)).
  { intros w [(msg & -> & Hf)|(_ & Hn & _)]; [|by destruct Hn].
    unfold finish, received. cbn [app]. rewrite (Hf I (debug e) I eq_refl).
    unfold asks_whether in Hk. by destruct t; subst c. }
  destruct (c123_question sh (map dispatches tasks) s0 sched x b _ t ks q (fit_room _ _ Hfit) Hx Hd Hqn Hks Hq)
    as [[H1 H2]|(H1 & k & y & H2 & H3 & H4)]; cbn [c_env c_req c_res] in *; rewrite (Hfin _ H1); [left|right]; (split; [done|]).
  - intros k Hin. destruct (H2 k Hin) as (y & Hy & ?). exists y. split; [by eapply seen_tasks|done].
  - exists k, y. split_and!; [done|by eapply seen_tasks|done].
Qed.

(** What a task gets was there while it was getting it. *)
Lemma c123_get sh tasks s0 sched x a e c k t r :
  sendable tasks -> tasks_fit tasks s0 -> at_work sh tasks s0 sched = Some x ->
  task_call tasks a = Some (e, c) -> c = KGet k \/ c = KGetTyped k t -> ordinary k -> got tasks x a r ->
  exists y, task_seen sh tasks s0 sched a k y /\
  match st_keys y.2 !! k with
  | Some v => sound v -> r = if wrong_kind c v then RPanic else ROk (RpValue v)
  | None => r = RErr (CERunningCommand EKeyNonexistent)
  end.
Proof.
  intros Hsend Hfit Hx Hc Hk Ho Hg. assert (Hm : made_by_one tasks e c) by by exists a.
  destruct (Hsend _ _ Hm) as [He Hl].
  assert (Hro : reads_one_key c k) by (destruct Hk as [->| ->]; [by left|right; left; by eexists]).
  assert (Hr : refused c = None).
  { destruct Ho as [Hne%nonempty _]. by destruct Hk as [->| ->]; cbn; rewrite Hne. }
  destruct (makes_built e c He Hl Hr) as (bl & Hb & _).
  pose proof (build_asks e c bl He Hl Hb) as Ha.
  assert (Ha' : asks (into_request bl) CGet None [k]) by (by destruct Hk as [->| ->]). clear Ha.
  assert (Hnone : forall s, room s -> st_keys s !! k = None -> (mem_call e s c).2 = RErr (CERunningCommand EKeyNonexistent)).
  { intros s Hs Hn. rewrite (mem_alone _ _ _ _ Hb).
    assert (E : (dispatch e s (into_request bl) []).2 = CErr EKeyNonexistent []); [|by rewrite E].
    eapply (dispatch_err e s _ [] CGet None [k]); [done|exact Ha'|done|]. cbn. unfold spec_get. rewrite ordinary_ok by done. by rewrite Hn. }
  assert (Hsome : forall s v, room s -> st_keys s !! k = Some v -> sound v ->
    (mem_call e s c).2 = if wrong_kind c v then RPanic else ROk (RpValue v)).
  { intros s v Hs Hv Hsv. rewrite (mem_alone _ _ _ _ Hb).
    assert (E : responds e [] v (dispatch e s (into_request bl) []).2).
    { eapply (dispatch_val e s _ [] CGet None [k]); [done|exact Ha'|done|]. cbn. unfold spec_get. rewrite ordinary_ok by done. by rewrite Hv. }
    pose proof Hsv as (Hwf & Hlim & _). destruct E as [(msg & -> & Hf)|(_ & Hn & _)]; [|done].
    unfold finish, received. cbn [app] in *. rewrite (Hf Hlim (debug e) Hwf (sound_decodable _ _ Hsv)). cbn [rbind].
    destruct Hk as [->| ->]; cbn.
    - done.
    - unfold of_kind. case_decide as E; [by rewrite bool_decide_true|by rewrite bool_decide_false]. }
  destruct (c123_tasks sh tasks s0 sched x a e c k r Hsend Hfit Hx Hc Hro (proj1 Ho) Hg)
    as [(y & Hy & ->)|[([E|E] & _)|H]].
  - exists y. split; [done|]. destruct (st_keys y.2 !! k) as [v|] eqn:Ev.
    + intros Hsv. apply Hsome; [apply data_room|done|done].
    + apply Hnone; [apply data_room|done].
  - destruct Hk; congruence.
  - destruct Hk; congruence.
  - exfalso. set (s1 := Store ∅ ∅). set (s2 := Store {[k := VBoolean true]} ∅).
    assert (R1 : room s1) by (apply (data_room ([], s1))). assert (R2 : room s2) by (apply (data_room ([], s2))).
    pose proof (H s1 R1) as E1. rewrite (Hnone s1 R1 (lookup_empty _)) in E1.
    pose proof (H s2 R2) as E2. rewrite (Hsome s2 (VBoolean true) R2 (lookup_singleton _ _) (sound_bool true)) in E2.
    rewrite E1 in E2. by destruct (wrong_kind _ _).
Qed.
