(** Tasks that share a memory client and add to a key that is not there yet: the proof of C120 for tasks. *)
From Verif Require Import Locks LockSpec LockScripts LockScriptSpec.
From Verif Require Import Bytes BytesFacts Utf8 Float64 Value CommandId
  Request Response RespContext Metrics Prog Commands EngineSpec WireSpec RequestSpec
  HistorySpec EngineProps ConcSpec ConcFacts ConcProps Scripts LinSpec LinFacts KeyLinSpec KeyLin KeyLinFacts
  LockScriptFacts Client ClientSpec ClientFacts ClientProps MemTasks MemTaskSpec MemTaskFacts
  MemAppendSpec MemAppend SetRaceSpec SetRaceFacts MemRaceFacts ForwardSpec ForwardFacts MemForwardSpec MemForward
  StartRaceSpec StartRace MemStartSpec.
From stdpp Require Import gmap list.
From Coq Require Import NArith ZArith Lia ZifyBool ZifyNat ZifyN.

(** From dispatches to the calls of tasks.  [f v] is the amount that the request for [v] carries. *)
Lemma adds_tasks {A B} sh tasks s0 (amount : call -> A -> Prop) (total : list A -> value)
  (tadds : nat * nat -> B -> Prop) (total' : list B -> value) (f : B -> A) sched x now out ds :
  (forall p d, adds_there (map dispatches tasks) amount p d -> exists a v, same_place tasks a p /\ tadds a v /\ f v = d) ->
  (forall a v, tadds a v -> exists p, same_place tasks a p /\ adds_there (map dispatches tasks) amount p (f v)) ->
  (forall vs, total' vs = total (map f vs)) ->
  (forall a p l vs, a ∈ l -> NoDup l -> Forall2 tadds l vs -> same_place tasks a p -> task_over tasks x a ->
     lwas_told (map dispatches tasks) x p (total' vs) -> task_told tasks x a (total' vs)) ->
  made_of_adds (adds_there (map dispatches tasks) amount) total (lbefore sh (map dispatches tasks) s0 sched)
    (lhas_returned x) (lwas_told (map dispatches tasks) x) now out ds ->
  exists out' vs, made_of_adds tadds total' (earlier sh tasks s0 sched) (task_over tasks x) (task_told tasks x)
    now out' vs.
Proof.
  intros Hto Hfrom Htot Htold (H1 & H2 & H3 & H4 & H5 & H6 & H7).
  assert (Hback : forall l es, Forall2 (adds_there (map dispatches tasks) amount) l es ->
    exists l' vs, Forall2 (same_place tasks) l' l /\ Forall2 tadds l' vs /\ map f vs = es).
  { induction 1 as [|p d l es Hp HF IH]; [by exists [], []|]. destruct IH as (l' & vs & I1 & I2 & <-).
    destruct (Hto _ _ Hp) as (a & v & Ha & Hv & <-). exists (a :: l'), (v :: vs).
    split_and!; [by constructor..|done]. }
  assert (Hover : forall a p, same_place tasks a p -> task_over tasks x a -> lhas_returned x p).
  { intros a p Hs [r Hg]. by eapply got_dispatch. }
  destruct (Hback _ _ H2) as (out' & vs & HS & HV & <-).
  exists out', vs. split_and!.
  - by eapply places_nodup.
  - done.
  - rewrite Htot. destruct H3 as [?|(A1 & -> & A3)]; [by left|right].
    split_and!; [done|by apply Forall2_nil_inv_r in HS|].
    intros a v Ha Ho. destruct (Hfrom _ _ Ha) as (p & Hs & Hp). by eapply A3, Hover.
  - intros i a Hi Ho. destruct (Forall2_lookup_l _ _ _ _ _ HS Hi) as (p & Hp & Hs).
    eapply (Htold a p (take (S i) out')).
    + apply (elem_of_list_lookup_2 _ i). by rewrite lookup_take by lia.
    + assert (Hnd : NoDup out') by by eapply places_nodup.
      rewrite <-(take_drop (S i) out') in Hnd. by apply NoDup_app in Hnd as [? _].
    + by apply Forall2_take.
    + done.
    + done.
    + rewrite Htot, <-firstn_map. apply H4; [done|]. by eapply Hover.
  - intros i j a b Hi Hj He.
    destruct (Forall2_lookup_l _ _ _ _ _ HS Hi) as (p & Hp & Hs).
    destruct (Forall2_lookup_l _ _ _ _ _ HS Hj) as (p' & Hp' & Hs').
    apply (H5 _ _ _ _ Hp Hp'). by eapply earlier_before.
  - intros a v Ha Ho. destruct (Hfrom _ _ Ha) as (p & Hs & Hp).
    destruct (H6 p _ Hp) as (l & es & L1 & L2 & L3); [by eapply Hover|].
    destruct (Hback _ _ L2) as (l' & ws & S1 & S2 & <-).
    apply Forall2_app_inv_r in S1 as (l1 & l2 & S1 & S3 & ->).
    apply Forall2_cons_inv_r in S3 as (a' & l3 & Sa & S3 & ->). apply Forall2_nil_inv_r in S3 as ->.
    pose proof (same_place_inj _ _ _ _ Hs Sa) as <-.
    assert (Hnd : NoDup (l1 ++ [a])).
    { eapply places_nodup; [|exact L1]. apply Forall2_app; [done|]. by constructor. }
    exists l1, ws. split_and!; [done|done|].
    eapply (Htold a p (l1 ++ [a])); [set_solver|done|done|done|done|by rewrite Htot].
  - intros a v Ha Ho Hn. destruct (Hfrom _ _ Ha) as (p & Hs & Hp).
    destruct (H7 p _ Hp) as (q & (B1 & [dq B2] & B3 & B4) & B5).
    + by eapply Hover.
    + intros [i Hi]%elem_of_list_lookup. destruct (Forall2_lookup_r _ _ _ _ _ HS Hi) as (a' & Ha' & Hs').
      pose proof (same_place_inj _ _ _ _ Hs Hs') as <-. by apply Hn, (elem_of_list_lookup_2 _ i).
    + destruct (Hto _ _ B2) as (b & w & Hb & Hw & _). exists b. split.
      * split_and!.
        -- intros ->. apply B1. by eapply same_place_fun.
        -- by exists w.
        -- intros He. apply B3. by eapply earlier_before.
        -- intros a' v' Ha' He. destruct (Hfrom _ _ Ha') as (p' & Hs' & Hp'). eapply B4; [exact Hp'|].
           by eapply earlier_before.
      * destruct B5 as [[i Hi]%elem_of_list_lookup|B5].
        -- left. destruct (Forall2_lookup_r _ _ _ _ _ HS Hi) as (b' & Hb' & Hs').
           pose proof (same_place_inj _ _ _ _ Hb Hs') as <-. by apply (elem_of_list_lookup_2 _ i).
        -- right. intros Hob. by eapply B5, Hover.
Qed.

(** ** A counter *)

Lemma sum_range {A} D (adds : nat * nat -> Z -> Prop) (sizes : list A) l ds :
  (0 <= D)%Z -> (forall a d, adds a d -> - D <= d <= D)%Z -> length l <= length sizes ->
  i64_range (D * Z.of_nat (length sizes)) -> Forall2 adds l ds -> i64_range (fold_right Z.add 0%Z ds).
Proof.
  intros HD Hd Hl Hr HF.
  assert (Hds : Forall (fun d => - D <= d <= D)%Z ds).
  { apply Forall_forall. intros d [i Hi]%elem_of_list_lookup.
    destruct (Forall2_lookup_r _ _ _ _ _ HF Hi) as (a & _ & Ha). by eapply Hd. }
  pose proof (summed_bound _ _ Hds) as Hb. rewrite <-(Forall2_length _ _ _ HF) in Hb.
  assert (D * Z.of_nat (length l) <= D * Z.of_nat (length sizes))%Z by (apply Z.mul_le_mono_nonneg_l; lia).
  unfold i64_range in *; lia.
Qed.

(** As many different calls as there are. *)
Lemma task_calls_few (tasks : list task) (l : list (nat * nat)) :
  NoDup l -> (forall a, a ∈ l -> is_Some (task_call tasks a)) -> length l <= length (concat tasks).
Proof.
  intros Hnd Hl.
  assert (H : forall (ts : list task), exists out : list (nat * nat), length out = length (concat ts) /\
    forall i j h y, ts !! i = Some h -> h !! j = Some y -> (i, j) ∈ out).
  { clear. induction ts as [|h ts (out & I1 & I2)]; [by exists []|].
    exists (map (fun j => (0, j)) (seq 0 (length h)) ++ map (fun a => (S a.1, a.2)) out). split.
    - cbn. rewrite !app_length, !map_length, seq_length. lia.
    - intros [|i] j h' y Hi Hj; cbn in Hi.
      + injection Hi as <-. apply elem_of_app. left. apply elem_of_list_fmap. exists j. split; [done|].
        apply elem_of_seq. apply lookup_lt_Some in Hj. lia.
      + apply elem_of_app. right. apply elem_of_list_fmap. exists (i, j). split; [done|]. by eapply I2. }
  destruct (H tasks) as (out & <- & Hout). apply submseteq_length, NoDup_submseteq; [done|].
  intros [i j] Ha. destruct (Hl _ Ha) as [y Hy]. unfold task_call in Hy. cbn in Hy.
  destruct (tasks !! i) as [h|] eqn:Hi; [|done]. cbn in Hy. by eapply Hout.
Qed.

Lemma c120_tasks_counter sh tasks k s0 D sched x :
  tasks_fit tasks s0 -> sendable tasks -> ordinary k -> k <> [] -> st_keys s0 !! k = None ->
  (forall e c, made_by_one tasks e c -> (exists d, adds_amount c k d) \/ ~ changes c k) ->
  (forall e c d, made_by_one tasks e c -> adds_amount c k d -> - D <= d <= D)%Z -> (0 <= D)%Z ->
  i64_range (D * Z.of_nat (length (concat tasks))) ->
  at_work sh tasks s0 sched = Some x ->
  exists now out ds, (unlocked sh x k -> st_keys x.2 !! k = now) /\
    made_of_adds (task_adds tasks k) summed (earlier sh tasks s0 sched) (task_over tasks x) (task_told tasks x)
      now out ds.
Proof.
  intros Hfit Hsend Hk Hne H0 Hcalls Hamt HD Hr1 Hx.
  pose proof (dispatches_concat tasks) as Hlen.
  assert (Hmul : (D * Z.of_nat (length (concat (map dispatches tasks))) <= D * Z.of_nat (length (concat tasks)))%Z).
  { apply Z.mul_le_mono_nonneg_l; lia. }
  assert (Hpos : (0 <= D * Z.of_nat (length (concat (map dispatches tasks))))%Z) by (apply Z.mul_nonneg_nonneg; lia).
  assert (Hd64 : forall e c d, made_by_one tasks e c -> adds_amount c k d -> i64_range d).
  { intros e c d [a Hm] Ha. eapply (sum_range D (task_adds tasks k) (concat tasks) [a] [d]) in Hr1; try done.
    - cbn in Hr1. by rewrite Z.add_0_r in Hr1.
    - intros a' d' (e' & c' & Hc' & Ha'). eapply Hamt; [|done]. by eexists.
    - apply task_calls_few; [apply NoDup_singleton|]. intros ? ->%elem_of_list_singleton. by rewrite Hm.
    - constructor; [|done]. by exists e, c. }
  assert (Hadd : forall p dd, call_at (map dispatches tasks) p = Some dd ->
    (exists a e c d, same_place tasks a p /\ task_call tasks a = Some (e, c) /\ adds_amount c k d /\
       adds_int dd k d /\ (- D <= d <= D)%Z) \/ ~ may_write (c_req dd) k).
  { intros p dd Hd. destruct (call_at_tasks _ _ _ Hd) as (a & e & c & bl & Hs & Hc & Hb & ->).
    assert (Hm : made_by_one tasks e c) by by eexists. destruct (Hsend _ _ Hm) as [He Hl].
    destruct (Hcalls _ _ Hm) as [[d Ha]|Hno].
    - left. exists a, e, c, d. split_and!; try done; [|by eapply Hamt..].
      eapply amount_built; [done|by eapply Hd64|done|done].
    - right. intros Hw. apply Hno. by eapply may_write_changes. }
  assert (Hfun : forall p dd d, call_at (map dispatches tasks) p = Some dd -> adds_int dd k d ->
    exists a, same_place tasks a p /\ task_adds tasks k a d /\ (- D <= d <= D)%Z).
  { intros p dd d Hd Ha. destruct (Hadd p dd Hd) as [(a & e & c & d' & Hs & Hc & Hca & Ha' & Hdd)|Hno].
    - pose proof (adds_int_fun _ _ _ _ Ha Ha') as <-. exists a. split_and!; try done; [|lia..]. by exists e, c.
    - exfalso. by eapply Hno, adds_int_writes. }
  destruct (c120_counter_locked sh k (map dispatches tasks) s0 D sched x) as (now & out & ds & Hnow & Hmade); try done.
  - by apply fit_room.
  - by apply envs_ok_tasks.
  - intros dd [p Hd]. destruct (Hadd p dd Hd) as [(_ & _ & _ & d & _ & _ & _ & ? & _)|]; [left; by exists d|by right].
  - intros dd d [p Hd] Ha. by destruct (Hfun p dd d Hd Ha) as (_ & _ & _ & ?).
  - unfold i64_range in *; lia.
  - exists now. enough (exists out' vs, made_of_adds (task_adds tasks k) summed (earlier sh tasks s0 sched)
      (task_over tasks x) (task_told tasks x) now out' vs) as (out' & vs & Hm) by (by exists out', vs).
    eapply (adds_tasks sh tasks s0 (fun c => adds_int c k) summed (task_adds tasks k) summed id); [| | | |exact Hmade].
    + intros p d (dd & Hd & Ha). destruct (Hfun p dd d Hd Ha) as (a & ? & ? & _). by exists a, d.
    + intros a d (e & c & Hc & Ha). assert (Hm : made_by_one tasks e c) by by eexists.
      destruct (Hsend _ _ Hm) as [He Hl].
      destruct (makes_built e c He Hl) as (bl & Hbd & _); [by eapply amount_refused|].
      destruct (tasks_call_at _ _ _ _ _ Hc Hbd) as (p & Hs & Hd). exists p. split; [done|].
      eexists. split; [exact Hd|]. eapply amount_built; [done|by eapply Hd64|done|done].
    + intros vs. by rewrite map_id.
    + intros a p l vs Ha Hnd HF Hs [r Hg] (dd & q & Hd & Hq & Hresp).
      assert (Hvs : i64_range (fold_right Z.add 0 vs)%Z).
      { eapply (sum_range D (task_adds tasks k) (concat tasks) l); try done.
        - intros a' d' (e' & c' & Hc' & Ha'). eapply Hamt; [|done]. by eexists.
        - apply task_calls_few; [done|]. intros a' [i Hi]%elem_of_list_lookup.
          destruct (Forall2_lookup_l _ _ _ _ _ HF Hi) as (d' & _ & e' & c' & -> & _). done. }
      assert (Hadds : exists d, task_adds tasks k a d).
      { apply elem_of_list_lookup in Ha as [i Hi].
        destruct (Forall2_lookup_l _ _ _ _ _ HF Hi) as (d' & _ & ?). by exists d'. }
      destruct Hadds as (d & e & c & Hc & Hca).
      destruct (got_returned _ _ _ _ _ _ _ Hs Hc Hg) as (q' & Hq' & ->).
      assert (q' = q) as ->.
      { destruct Hq as (cl & E1 & E2), Hq' as (cl' & E1' & E2'). congruence. }
      unfold task_told. destruct (call_at_tasks _ _ _ Hd) as (a' & e' & c' & bl & Hs' & Hc' & Hb & ->).
      pose proof (same_place_inj _ _ _ _ Hs Hs') as <-. assert (e' = e /\ c' = c) as [-> ->] by (split; congruence).
      cbn [c_env c_res] in Hresp. unfold summed in *. by rewrite <-(finish_amount e c k d _ q Hca Hvs Hresp).
Qed.

(** ** Appends *)

Lemma c120_tasks_log sh tasks k s0 t sched x :
  tasks_fit tasks s0 -> sendable tasks -> ordinary k -> k <> [] -> st_keys s0 !! k = None ->
  t = KTBytes \/ t = KTList \/ t = KTString ->
  (forall e c, made_by_one tasks e c ->
     (exists v, appends_value c k v /\ kind v = t /\ value_wf v) \/ ~ changes c k) ->
  (forall l vs, l <> [] -> NoDup l -> Forall2 (task_appends tasks k) l vs -> sound (appended t vs)) ->
  at_work sh tasks s0 sched = Some x ->
  exists now out vs, (unlocked sh x k -> st_keys x.2 !! k = now) /\
    made_of_adds (task_appends tasks k) (appended t) (earlier sh tasks s0 sched) (task_over tasks x)
      (task_told tasks x) now out vs.
Proof.
  intros Hfit Hsend Hk Hne H0 Ht Hcalls Hsound Hx.
  assert (Hcont : forall e v, kind v = t -> value_args e v = content v).
  { intros e v <-. by destruct v, Ht as [?|[?|?]]. }
  assert (Hval : forall e c v, made_by_one tasks e c -> appends_value c k v -> kind v = t /\ value_wf v).
  { intros e c v Hm Hv. destruct (Hcalls _ _ Hm) as [(v2 & Hv2 & ? & ?)|Hno].
    - by assert (v2 = v) as <- by (destruct Hv as [->| ->], Hv2 as [E|E]; congruence).
    - exfalso. by eapply Hno, appends_changes. }
  assert (Hfits : forall v, kind v = t -> value_wf v -> is_Some (append_to (blank t) (content v))).
  { intros v Hv Hwf. rewrite <-(Hcont (env_std false) v Hv). rewrite <-joined_append; try done.
    - by destruct v, Ht as [?|[?|?]]; subst t; try done; eexists.
    - by destruct Ht as [->|[->| ->]].
    - by destruct Ht as [->|[->| ->]]. }
  assert (Hback : forall p dd, call_at (map dispatches tasks) p = Some dd ->
    (exists a v, same_place tasks a p /\ task_appends tasks k a v /\ kind v = t /\ value_wf v /\
       appends dd k t (content v)) \/ ~ may_write (c_req dd) k).
  { intros p dd Hd. destruct (call_at_tasks _ _ _ Hd) as (a & e & c & bl & Hs & Hc & Hb & ->).
    assert (Hm : made_by_one tasks e c) by by eexists. destruct (Hsend _ _ Hm) as [He Hl].
    destruct (Hcalls _ _ Hm) as [(v & Hv & Hkd & Hwf)|Hno].
    - left. exists a, v. split_and!; try done.
      + exists e, c. split_and!; try done. destruct (refused c) as [err|] eqn:Hr; [|done].
        by rewrite (makes_refused e c err He Hl Hr) in Hb.
      + rewrite <-(Hcont e v Hkd). rewrite <-Hkd. by eapply append_built.
    - right. intros Hw'. apply Hno. by eapply may_write_changes. }
  destruct (c120_log_locked sh k (map dispatches tasks) s0 t sched x) as (now & out & ds & Hnow & Hmade); try done.
  - by apply fit_room.
  - by apply envs_ok_tasks.
  - intros dd [p Hd]. destruct (Hback p dd Hd) as [(a & v & _ & _ & Hkd & Hwf & Hap)|]; [left|by right].
    exists (content v). split; [done|]. by apply Hfits.
  - exists now. enough (exists out' vs, made_of_adds (task_appends tasks k) (appended t) (earlier sh tasks s0 sched)
      (task_over tasks x) (task_told tasks x) now out' vs) as (out' & vs & Hm) by (by exists out', vs).
    eapply (adds_tasks sh tasks s0 (fun c => appends c k t) (strung t) (task_appends tasks k) (appended t) content);
      [| | | |exact Hmade].
    + intros p d (dd & Hd & Ha). destruct (Hback p dd Hd) as [(a & v & Hs & Hv & Hkd & Hwf & Hap)|Hno].
      * exists a, v. split_and!; try done. destruct Hap as (_ & _ & Hap), Ha as (_ & _ & Ha).
        pose proof (carries_fun _ _ _ Hap Ha) as E. by injection E.
      * exfalso. apply Hno. pose proof Ha as (Hcm & _). split; [by rewrite Hcm|]. left. by eapply asks_arg0.
    + intros a v (e & c & Hc & Ha & Hrf). assert (Hm : made_by_one tasks e c) by by eexists.
      destruct (Hsend _ _ Hm) as [He Hl]. destruct (Hval e c v Hm Ha) as [Hkd Hwf].
      destruct (makes_built e c He Hl Hrf) as (bl & Hbd & _).
      destruct (tasks_call_at _ _ _ _ _ Hc Hbd) as (p & Hs & Hd). exists p. split; [done|].
      eexists. split; [exact Hd|]. rewrite <-(Hcont e v Hkd). rewrite <-Hkd. by eapply append_built.
    + done.
    + intros a p l vs Ha Hnd HF Hs [r Hg] (dd & q & Hd & Hq & Hresp).
      assert (Hvs : sound (appended t vs)).
      { eapply Hsound; [|done|done]. by intros ->; apply elem_of_nil in Ha. }
      assert (Hadds : exists v, task_appends tasks k a v).
      { apply elem_of_list_lookup in Ha as [i Hi].
        destruct (Forall2_lookup_l _ _ _ _ _ HF Hi) as (d' & _ & ?). by exists d'. }
      destruct Hadds as (v & e & c & Hc & Hca & Hrf).
      destruct (Hval e c v) as [Hkd Hwf]; [by eexists|done|].
      destruct (got_returned _ _ _ _ _ _ _ Hs Hc Hg) as (q' & Hq' & ->).
      assert (q' = q) as ->.
      { destruct Hq as (cl & E1 & E2), Hq' as (cl' & E1' & E2'). congruence. }
      unfold task_told. destruct (call_at_tasks _ _ _ Hd) as (a' & e' & c' & bl & Hs' & Hc' & Hb & ->).
      pose proof (same_place_inj _ _ _ _ Hs Hs') as <-. assert (e' = e /\ c' = c) as [-> ->] by (split; congruence).
      cbn [c_env c_res] in Hresp.
      rewrite <-(finish_append e c k v _ q Hca Hvs); [done| |done].
      rewrite Hkd. by destruct Ht as [->|[->| ->]].
Qed.
