(** Calls of a shared memory client about one key take effect one after the other (C102). *)
From Verif Require Import Locks LockSpec LockScripts LockScriptSpec LockScriptFacts.
From Verif Require Import Bytes BytesFacts Utf8 Float64 Value CommandId Request Response RespContext
  Metrics Prog Commands EngineSpec WireSpec RequestSpec RequestFacts HistorySpec ProgFacts
  CommandFacts SafeFacts EngineFacts EngineProps HistoryFacts Concurrent ConcSpec ConcFacts ConcProps
  Scripts LinSpec LinFacts KeyLinSpec KeyLin KeyLinFacts IsoSpec IsoFacts ScriptInv IsoProps
  Client ClientSpec ClientFacts ClientProps MemTasks MemTaskSpec MemTaskFacts MemAppendSpec MemAppend
  MemLinSpec.
From stdpp Require Import gmap list.
From Coq Require Import NArith ZArith Lia.
From Coq Require Import ZifyBool ZifyNat ZifyN.

(** ** From dispatches back to calls *)

Fixpoint place (h : task) (n : nat) : nat :=
  match h with
  | [] => 0
  | (e, c) :: h =>
    match build e c with
    | ROk _ => match n with 0 => 0 | S n => S (place h n) end
    | _ => S (place h n)
    end
  end.
Lemma place_spec h : forall n d, dispatches h !! n = Some d ->
  exists e c b, h !! place h n = Some (e, c) /\ build e c = ROk b /\ d = Call e (into_request b) [] /\
    n = length (dispatches (take (place h n) h)).
Proof.
  induction h as [|[e c] h IH]; intros n d Hd; [done|]. cbn in Hd. cbn [place].
  destruct (build e c) as [b|err| |] eqn:Hb.
  1: destruct n as [|n]; cbn in Hd; [injection Hd as <-; by exists e, c, b|].
  all: destruct (IH _ _ Hd) as (e' & c' & b' & H1 & H2 & H3 & H4); exists e', c', b';
    cbn [take dispatches lookup list_lookup]; rewrite Hb; cbn; split_and!; try done; lia.
Qed.

Definition back (tasks : list task) (b : nat * nat) : nat * nat :=
  match tasks !! b.1 with Some h => (b.1, place h b.2) | None => b end.
Lemma back_spec tasks b d : call_at (map dispatches tasks) b = Some d ->
  exists e c bl, same_place tasks (back tasks b) b /\ task_call tasks (back tasks b) = Some (e, c) /\
    build e c = ROk bl /\ d = Call e (into_request bl) [].
Proof.
  destruct b as [i n]. unfold call_at, back. cbn. rewrite dispatches_lookup.
  destruct (tasks !! i) as [h|] eqn:Ht; [|done]. cbn. intros Hd.
  destruct (place_spec _ _ _ Hd) as (e & c & bl & H1 & H2 & H3 & H4).
  exists e, c, bl. unfold same_place, task_call. cbn. rewrite Ht. cbn. split_and!; try done.
  eauto 10.
Qed.

(** ** What the dispatches are about *)

Lemma carries_count req (l : list bytes) : carries req l -> arg_count req = lenN l.
Proof. by intros [H _]. Qed.

Lemma about_on_key e c b k : env_ok e -> (sends c <= 255)%N -> build e c = ROk b ->
  on_key k c -> about k (Call e (into_request b) []).
Proof.
  intros He Hs Hb Ho. pose proof (build_asks e c b He Hs Hb) as Ha.
  unfold about, one_access, one_update. cbn [c_req].
  destruct Ho as [Ho|Ho], c; try done; cbn in Ho; cbn [request_of] in Ha.
  all: try (destruct t; [|done]).
  all: subst; destruct Ha as (Hc & Hk & Hr); rewrite Hc; split;
    [by rewrite (carried_arg _ _ _ Hr)|]; split; [done|].
  all: try by left.
  all: try by right.
  all: try by (left; rewrite (carries_count _ _ Hr)).
  all: try by (left; rewrite Hk).
  all: try by (right; rewrite Hk).
Qed.

Lemma update_extends e c b k : env_ok e -> (sends c <= 255)%N -> build e c = ROk b ->
  one_update (into_request b) -> arg (into_request b) 0 = Some k -> extends c k.
Proof.
  intros He Hs Hb Ho Hk. pose proof (build_asks e c b He Hs Hb) as Ha. unfold one_update in Ho.
  destruct c; cbn [request_of] in Ha; destruct Ha as (Hc & _ & Hr); rewrite Hc in Ho; try done; cbn;
    rewrite (carried_arg _ _ _ Hr) in Hk; by injection Hk.
Qed.

Lemma delete_is e c b k : env_ok e -> (sends c <= 255)%N -> build e c = ROk b ->
  r_command (into_request b) = CDelete -> arg (into_request b) 0 = Some k -> c = KDelete k.
Proof.
  intros He Hs Hb Ho Hk. pose proof (build_asks e c b He Hs Hb) as Ha.
  destruct c; cbn [request_of] in Ha; destruct Ha as (Hc & _ & Hr); rewrite Hc in Ho; try done; cbn.
  rewrite (carried_arg _ _ _ Hr) in Hk. by injection Hk as ->.
Qed.

Lemma plain_simple k tasks s0 : sendable tasks -> plain_at k tasks s0 ->
  simple_at k (map dispatches tasks) s0.
Proof.
  intros Hs Hp d [b Hd]. destruct (call_at_tasks _ _ _ Hd) as (a & e & c & bl & _ & Hc & Hb & ->).
  assert (Hm : made_by_one tasks e c) by by eexists. destruct (Hs _ _ Hm) as [He Hl].
  destruct (Hp _ _ Hm) as [H1 H2]. split.
  - destruct H1 as [Ho|Hn]; [left; by apply (about_on_key e c)|right]. intros Hw. apply Hn.
    by eapply may_write_changes.
  - cbn [c_req]. intros Hu Hk. destruct H2 as [Hi Hnd]; [by eapply update_extends|]. split; [done|].
    intros d' [b' Hd'] Hcd Ha'.
    destruct (call_at_tasks _ _ _ Hd') as (a' & e' & c' & bl' & _ & Hc' & Hb' & ->).
    assert (Hm' : made_by_one tasks e' c') by by eexists. destruct (Hs _ _ Hm') as [He' Hl'].
    apply (Hnd e'). by rewrite <-(delete_is e' c' bl' k He' Hl' Hb' Hcd Ha').
Qed.

(** ** Calls that are all sent *)

Definition all_built (h : task) (hd : list call) : Prop :=
  Forall2 (fun ec d => exists b, build ec.1 ec.2 = ROk b /\ d = Call ec.1 (into_request b) []) h hd.
Lemma built_dispatches h hd : all_built h hd -> dispatches h = hd.
Proof.
  induction 1 as [|[e c] d h hd (b & Hb & ->) _ IH]; [done|]. cbn in *. rewrite Hb. by f_equal.
Qed.
Lemma built_results h hd : all_built h hd -> forall rs p e c r, h !! p = Some (e, c) ->
  rs !! p = Some r -> results h rs !! p = Some (finish e c r).
Proof.
  induction 1 as [|[e c] d h hd (b & Hb & ->) _ IH]; [done|]. cbn [fst snd] in *.
  intros rs p e' c' r Hp Hr. cbn [results]. rewrite Hb. destruct rs as [|q rs]; [done|].
  destruct p as [|p]; cbn in *; [congruence|]. by eapply IH.
Qed.

Lemma begun_not_ahead tasks x a b : same_place tasks a b ->
  (forall cl, x.1 !! b.1 = Some cl -> b.2 < lbegun cl) -> ~ ahead tasks x a.
Proof.
  intros Hs Hl Ha. destruct (ahead_not_begun _ _ _ _ Hs Ha) as (cl & Hx & Hb). specialize (Hl _ Hx). lia.
Qed.

Lemma back_about tasks k b d : sendable tasks ->
  (forall e c, made_by_one tasks e c -> on_key k c \/ ~ changes c k) ->
  call_at (map dispatches tasks) b = Some d -> about k d ->
  exists e c bl, same_place tasks (back tasks b) b /\ task_call tasks (back tasks b) = Some (e, c) /\
    build e c = ROk bl /\ d = Call e (into_request bl) [] /\ on_key k c /\ refused c = None.
Proof.
  intros Hs Hp Hd Hab. destruct (back_spec _ _ _ Hd) as (e & c & bl & H1 & H2 & H3 & ->).
  exists e, c, bl. split_and!; try done.
  - assert (Hm : made_by_one tasks e c) by by eexists. destruct (Hs _ _ Hm) as [He Hl].
    pose proof (build_asks e c bl He Hl H3) as Ha. destruct Hab as (Hk & Hne & Ho).
    cbn [c_req] in *. unfold one_access, one_update in Ho.
    destruct c; cbn [request_of] in Ha; destruct Ha as (Hc & Hkt & Hr); rewrite Hc in Ho, Hne;
      rewrite (carried_arg _ _ _ Hr) in Hk; unfold on_key; cbn.
    all: try (rewrite Hkt in Ho).
    all: try (rewrite (carries_count _ _ Hr) in Ho).
    all: cbn in Hk; try (injection Hk as ->).
    all: try (destruct Ho as [Ho|Ho]; try done).
    all: try by left.
    all: try by right.
    all: try by destruct keys as [|k1 [|k2 keys]]; [done|injection Hk as ->; left|unfold lenN in Ho; cbn in Ho; lia].
    by destruct t; [left|].
  - destruct (refused c) as [err|] eqn:Hr; [|done].
    assert (Hm : made_by_one tasks e c) by by eexists. destruct (Hs _ _ Hm) as [He Hl].
    rewrite (makes_refused e c err He Hl Hr) in H3. done.
Qed.

Lemma c102_order sh k tasks s0 sched x :
  tasks_fit tasks s0 -> sendable tasks -> plain_at k tasks s0 ->
  at_work sh tasks s0 sched = Some x ->
  exists order : nat -> list (nat * nat),
  (forall m n, m <= n <= length sched -> order m `prefix_of` order n) /\
  forall n y, n <= length sched -> at_work sh tasks s0 (take n sched) = Some y ->
  exists h, as_if_alone sh k tasks s0 (order n) h y.
Proof.
  intros Hfit Hsend Hp Hx.
  destruct (c85_locked sh k (map dispatches tasks) s0 sched x (fit_room _ _ Hfit)
    (plain_simple _ _ _ Hsend Hp) Hx) as [lin Hlin].
  assert (Hrun : forall n, n <= length sched -> exists y,
    lsys_run sh (take n sched) (lbegin (map dispatches tasks) s0) = Some y).
  { intros n Hn. unfold at_work in Hx. rewrite <-(take_drop n sched), lsys_run_app in Hx.
    destruct (lsys_run sh (take n sched) _) as [y|]; [by exists y|done]. }
  exists (fun n => back tasks <$> lin n). split.
  { intros m n [Hm Hn]. destruct (Hrun n Hn) as [y Hy]. destruct (Hlin n y Hn Hy) as [_ Hpre].
    destruct (Hpre m Hm) as [r ->]. rewrite fmap_app. by eexists. }
  intros n y Hn Hy. destruct (Hlin n y Hn Hy) as [(hd & E1 & E2 & E3 & E4) _].
  assert (Hp1 : forall e c, made_by_one tasks e c -> on_key k c \/ ~ changes c k).
  { intros e c Hm. apply (Hp _ _ Hm). }
  assert (Hback : exists h, all_built h hd /\
    Forall2 (fun b ec => same_place tasks (back tasks b) b /\ task_call tasks (back tasks b) = Some ec /\
      on_key k ec.2 /\ refused ec.2 = None) (lin n) h).
  { clear E2 E3 E4. induction E1 as [|b d l hd [Hd Ha] E1 IH]; [exists []; by split; constructor|].
    destruct IH as (h & H1 & H2).
    destruct (back_about _ _ _ _ Hsend Hp1 Hd Ha) as (e & c & bl & B1 & B2 & B3 & B4 & B5 & B6).
    exists ((e, c) :: h). split; constructor; try done. by exists bl. }
  destruct Hback as (h & Hb & Hf). exists h.
  assert (HS : Forall2 (same_place tasks) (back tasks <$> lin n) (lin n)).
  { apply Forall2_fmap_l. apply Forall2_same_length_lookup. split; [done|]. intros i b b' Hi Hi'.
    assert (b' = b) as -> by congruence.
    by destruct (Forall2_lookup_l _ _ _ _ _ Hf Hi) as (ec & _ & Hs & _). }
  unfold as_if_alone. rewrite alone_is_mem_calls, (built_dispatches _ _ Hb). cbn [fst snd]. split_and!.
  - by eapply places_nodup.
  - apply Forall2_fmap_l. apply Forall2_same_length_lookup. split; [by eapply Forall2_length|].
    intros i b ec Hi Hec.
    destruct (Forall2_lookup_l _ _ _ _ _ Hf Hi) as (ec' & Hec' & Hs & Hc & Ho & Hr).
    rewrite Hec in Hec'. injection Hec' as <-. split_and!; try done.
    eapply begun_not_ahead; [exact Hs|]. intros cl Hcl. destruct (E4 _ _ Hcl) as [Hbg _].
    apply Hbg. rewrite <-surjective_pairing. by eapply elem_of_list_lookup_2.
  - done.
  - intros a e c r Hc Ho Hg.
    assert (Hm : made_by_one tasks e c) by by eexists. destruct (Hsend _ _ Hm) as [He Hl].
    destruct (refused c) as [err|] eqn:Hr.
    { destruct Hg as (h' & cl & Hh & _ & Hg). unfold task_call in Hc. rewrite Hh in Hc. cbn in Hc.
      eapply results_refused; [exact Hc| |exact Hg]. by apply makes_refused. }
    destruct (makes_built e c He Hl Hr) as (bl & Hbd & _).
    destruct (tasks_call_at _ _ _ _ _ Hc Hbd) as (b & Hs & Hd).
    destruct (got_returned _ _ _ _ _ _ _ Hs Hc Hg) as (q & (cl & Hcl & Hq) & ->).
    destruct (E4 _ _ Hcl) as [_ Hret].
    destruct (Hret b.2 q (Call e (into_request bl) []) Hq) as (p & Hpl & Hpr).
    { rewrite <-surjective_pairing. exact Hd. }
    { by apply (about_on_key e c). }
    rewrite <-surjective_pairing in Hpl.
    destruct (Forall2_lookup_l _ _ _ _ _ Hf Hpl) as ([e' c'] & Hec & Hs' & Hc' & _).
    pose proof (same_place_inj _ _ _ _ Hs Hs') as ->.
    rewrite Hc in Hc'. injection Hc' as <- <-. exists p.
    split; [by rewrite list_lookup_fmap, Hpl|]. by eapply built_results.
Qed.

Lemma lsys_run_take sh scripts s0 sched x n : lsys_run sh sched (lbegin scripts s0) = Some x ->
  exists y, lsys_run sh (take n sched) (lbegin scripts s0) = Some y.
Proof.
  intros H. rewrite <-(take_drop n sched), lsys_run_app in H.
  destruct (lsys_run sh (take n sched) _) as [y|]; [by exists y|done].
Qed.

Lemma c102 sh k tasks s0 sched x :
  tasks_fit tasks s0 -> sendable tasks -> plain_at k tasks s0 ->
  at_work sh tasks s0 sched = Some x ->
  exists order : nat -> list (nat * nat),
  (forall m n, m <= n <= length sched -> order m `prefix_of` order n) /\
  (forall n y, n <= length sched -> at_work sh tasks s0 (take n sched) = Some y ->
   exists h, as_if_alone sh k tasks s0 (order n) h y) /\
  forall i j a b, order (length sched) !! i = Some a -> order (length sched) !! j = Some b ->
    earlier sh tasks s0 sched a b -> i < j.
Proof.
  intros Hfit Hsend Hp Hx.
  destruct (c102_order _ _ _ _ _ _ Hfit Hsend Hp Hx) as (order & H1 & H2).
  exists order. split_and!; [done..|]. intros i j a b Hi Hj (n & y & r & Hn & Hy & Hg & Ha).
  destruct (H2 (length sched) x) as (h & Hnd & HF & _); [done|by rewrite firstn_all|].
  destruct (Forall2_lookup_l _ _ _ _ _ HF Hi) as ([e c] & _ & Hc & Ho & Hr & _).
  destruct (H2 n y Hn Hy) as (h' & Hnd' & HF' & _ & Hret).
  specialize (Hret a e c r Hc Ho Hg). cbn [snd] in Hr. rewrite Hr in Hret.
  destruct Hret as (p & Hpl & _). destruct (H1 n (length sched)) as [rest Hrest]; [lia|].
  assert (i = p) as ->.
  { eapply NoDup_lookup; [exact Hnd|exact Hi|]. rewrite Hrest. by apply lookup_app_l_Some. }
  destruct (decide (j < length (order n))) as [Hlt|Hge].
  - exfalso. rewrite Hrest, lookup_app_l in Hj by done.
    by destruct (Forall2_lookup_l _ _ _ _ _ HF' Hj) as (ec & _ & _ & _ & _ & Hna).
  - apply lookup_lt_Some in Hpl. lia.
Qed.

Lemma tasks_length (tasks : list task) l (h : task) :
  NoDup l -> Forall2 (fun a ec => task_call tasks a = Some ec) l h -> length h <= length (concat tasks).
Proof.
  intros Hn HF. rewrite <-(Forall2_length _ _ _ HF).
  set (f := fun ec : env * client_call => Call ec.1 (into_request (builder_new CStats)) []).
  set (sc := map (map f) tasks : list (list call)).
  assert (El : length (concat tasks) = length (concat sc)).
  { subst sc. clear. induction tasks as [|t tasks IH]; [done|]. cbn. rewrite !app_length, IH.
    by rewrite map_length. }
  rewrite El, <-all_calls_length. apply submseteq_length, NoDup_submseteq; [done|].
  intros a [i Hi]%elem_of_list_lookup. destruct (Forall2_lookup_l _ _ _ _ _ HF Hi) as (ec & _ & Hc).
  apply (all_calls_in _ _ (f ec)). unfold call_at, task_call, sc in *.
  destruct (tasks !! a.1) as [t|] eqn:Ht; [|done]. cbn in *.
  rewrite (map_lookup (map f) _ _ _ Ht). cbn. by rewrite (map_lookup f _ _ _ Hc).
Qed.

Lemma c102_as_map sh k tasks s0 l h x :
  tasks_fit tasks s0 -> sendable tasks -> all_sound (st_keys s0) ->
  as_if_alone sh k tasks s0 l h x -> all_within h (Ideal (st_keys s0) 0 0) ->
  let there := map_calls h (Ideal (st_keys s0) 0 0) in
  (unlocked sh x k -> st_keys x.2 !! k = i_keys there.1 !! k) /\
  forall a e c r, task_call tasks a = Some (e, c) -> on_key k c -> refused c = None ->
    got tasks x a r -> exists p y, l !! p = Some a /\ there.2 !! p = Some y /\ meets r y.
Proof.
  intros Hfit Hsend Hall (Hnd & HF & Hend & Hret) Hw there.
  assert (Hlen : length h <= length (concat tasks)).
  { eapply tasks_length; [exact Hnd|]. eapply Forall2_impl; [exact HF|]. by intros a ec [H _]. }
  assert (Hdl : length (dispatches h) <= length h).
  { clear. induction h as [|[e c] h IH]; [done|]. cbn. destruct (build e c); cbn; lia. }
  pose proof (calls_agree h (Store (st_keys s0) ∅) (Ideal (st_keys s0) 0 0) eq_refl (plain_counts _) Hall)
    as Hag.
  destruct (run_calls_agree (dispatches h) s0 (Store (st_keys s0) ∅)) as [E1 E2].
  { intros m. specialize (Hfit m). unfold lenN in *. lia. }
  { intros m. specialize (Hfit m). unfold count. cbn. rewrite lookup_empty. unfold lenN in *. cbn. lia. }
  { intros d [j Hj]%elem_of_list_lookup.
    destruct (dispatch_from _ _ _ Hj) as (p & e & c & b & Hp & Hb & -> & _). cbn [c_req].
    destruct (Forall2_lookup_r _ _ _ _ _ HF Hp) as (a & _ & Hc & Ho & _).
    destruct (Hsend e c) as [He Hl]; [by exists a|].
    pose proof (build_asks e c b He Hl Hb) as Ha.
    destruct c; destruct Ha as (-> & _); try done. by destruct Ho. }
  { done. }
  pose proof (Hfit MCommandsErrored) as Hf0.
  rewrite alone_is_mem_calls in Hag, Hend, Hret. subst there. destruct (map_calls h _) as [i' xs].
  cbn [i_ok i_err i_keys fst snd] in *.
  destruct Hag as [Hag1 Hag2]; [unfold lenN in *; lia|done|]. rewrite <-E1 in Hag1. split.
  - intros Hu. rewrite (Hend Hu). destruct h as [|[e c] h]; [by rewrite <-Hag2|].
    rewrite E2, Hag2; [done|]. inversion HF as [|a ? ? ? (Hc & Ho & Hr & _)]; subst. cbn [snd] in *.
    destruct (Hsend e c) as [He Hl]; [by exists a|].
    destruct (makes_built e c He Hl Hr) as (b & Hb & _). cbn [dispatches]. rewrite Hb.
    eexists. split; [by left|]. cbn [c_req]. eapply touches_uses; [done..|].
    by destruct Ho as [Ho|Ho], c; try done; cbn in Ho |- *; try (destruct t; [|done]); subst;
      apply elem_of_list_singleton.
  - intros a e c r Hc Ho Hr Hg. specialize (Hret a e c r Hc Ho Hg). rewrite Hr in Hret.
    destruct Hret as (p & Hp & Hrp). destruct (Forall2_lookup_l _ _ _ _ _ Hag1 Hrp) as (y & Hy & Hm).
    by exists p, y.
Qed.
