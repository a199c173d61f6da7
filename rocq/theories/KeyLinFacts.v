(** Increments hand out numbers, appends are kept, one delete wins (C86 - C88). *)
From Verif Require Import Bytes BytesFacts Utf8 Float64 Value CommandId Request Response
  Metrics Prog Commands EngineSpec WireSpec RequestSpec RequestFacts HistorySpec ProgFacts
  CommandFacts SafeFacts EngineFacts EngineProps HistoryFacts Concurrent ConcSpec ConcFacts ConcProps
  Scripts LinSpec LinFacts KeyLinSpec KeyLin.
From stdpp Require Import gmap list.
From Coq Require Import NArith ZArith Lia.
From Coq Require Import ZifyBool ZifyNat ZifyN.

(** ** A key that only the calls [W] change *)

Lemma keeps_unwritten c s k : ~ may_write (c_req c) k -> room s ->
  st_keys (dispatch (c_env c) s (c_req c) (c_res c)).1 !! k = st_keys s !! k.
Proof.
  intros Hk Hr. destruct (dispatch_cmd (c_env c) s (c_req c) (c_res c) Hr) as [_ ->].
  pose proof (command_within (c_env c) (c_req c) (c_res c)) as Hw.
  destruct (run_psteps (command_prog (c_env c) (c_req c) (c_res c)) s) as (r & Hp & _).
  revert Hp Hw. generalize (command_prog (c_env c) (c_req c) (c_res c)) as p.
  generalize (run (command_prog (c_env c) (c_req c) (c_res c)) s).1 as t.
  assert (H : forall p s q t, psteps p s q t ->
    within (uses (c_req c)) (may_write (c_req c)) (r_command (c_req c) = CStats) p ->
    st_keys t !! k = st_keys s !! k); [|by eauto].
  clear -Hk. intros p s q t. induction 1 as [p s|p s p' s' p'' s'' Hs _ IH]; [done|]. intros Hw.
  destruct (within_pstep _ _ _ _ _ _ _ Hw Hs) as [Hw' Hsame].
  rewrite IH by done. by apply Hsame.
Qed.

(** What the calls [W] do to what is at the key: from [v] to [v'], with outcome [r]. *)
Section writers.
  Context (k : bytes) (s0 : store) (W : call -> Prop)
    (T : call -> option value -> option value -> cres -> Prop).

  (** [ws] are the places of the calls [W] in [h], [vs] what is at [k] after each of them. *)
  Definition wrote (h : list call) (ws : list nat) (vs : list (option value)) : Prop :=
    length vs = length ws /\ NoDup ws /\
    (forall i j p q, ws !! i = Some p -> ws !! j = Some q -> (i < j <-> p < q)) /\
    (forall p c, h !! p = Some c -> W c -> p ∈ ws) /\
    (forall i p, ws !! i = Some p -> exists c r v v',
       h !! p = Some c /\ W c /\ (run_calls h s0).2 !! p = Some r /\
       (st_keys s0 !! k :: vs) !! i = Some v /\ vs !! i = Some v' /\ T c v v' r) /\
    st_keys (run_calls h s0).1 !! k = default (st_keys s0 !! k) (last vs).

  Hypothesis HT : forall s c, W c -> room s ->
    let d := dispatch (c_env c) s (c_req c) (c_res c) in
    T c (st_keys s !! k) (st_keys d.1 !! k) d.2.

  Lemma wrote_all (P : call -> Prop) h :
    (forall c, P c -> W c \/ (~ W c /\ ~ may_write (c_req c) k)) -> Forall P h ->
    (forall p, p < length h -> room (run_calls (take p h) s0).1) ->
    exists ws vs, wrote h ws vs.
  Proof.
    intros HP Hh Hroom. induction h as [|c h IH] using rev_ind.
    - exists [], []. split; [done|]. split; [constructor|]. split; [done|]. split; [done|].
      split; [done|]. done.
    - apply Forall_app in Hh as [Hh Hc]. apply Forall_cons in Hc as [Hc _].
      destruct IH as (ws & vs & H1 & H2 & H3 & H4 & H5 & H6); [done| |].
      { intros p Hp. specialize (Hroom p). rewrite app_length, take_app_le in Hroom by lia.
        apply Hroom. cbn. lia. }
      assert (Hr : room (run_calls h s0).1).
      { specialize (Hroom (length h)). rewrite app_length, take_app_le, firstn_all in Hroom by lia.
        apply Hroom. cbn. lia. }
      assert (Hlt : forall i p, ws !! i = Some p -> p < length h).
      { intros i p Hi. destruct (H5 _ _ Hi) as (d & r & v & v' & Hd & _). by eapply lookup_lt_Some. }
      assert (Hlen : length (run_calls h s0).2 = length h) by apply run_calls_length.
      destruct (HP c Hc) as [HW|[HnW Hnw]].
      + exists (ws ++ [length h]), (vs ++ [st_keys (run_calls (h ++ [c]) s0).1 !! k]).
        split; [rewrite !app_length; cbn; lia|]. split.
        { apply NoDup_app. split; [done|]. split; [|apply NoDup_singleton].
          intros p [i Hp]%elem_of_list_lookup ->%elem_of_list_singleton. apply Hlt in Hp. lia. }
        split.
        { intros i j p q Hi Hj.
          apply lookup_app_Some in Hi as [Hi|[Hi' Hi]]; apply lookup_app_Some in Hj as [Hj|[Hj' Hj]].
          - by eapply H3.
          - apply list_lookup_singleton_Some in Hj as [Hj <-]. pose proof (Hlt _ _ Hi).
            apply lookup_lt_Some in Hi. lia.
          - apply list_lookup_singleton_Some in Hi as [Hi <-]. pose proof (Hlt _ _ Hj).
            apply lookup_lt_Some in Hj. lia.
          - apply list_lookup_singleton_Some in Hi as [Hi <-], Hj as [Hj <-]. lia. }
        split.
        { intros p d Hp Hd. apply elem_of_app. apply lookup_app_Some in Hp as [Hp|[Hp' Hp]].
          - left. by eapply H4.
          - right. apply list_lookup_singleton_Some in Hp as [Hp _]. apply elem_of_list_singleton. lia. }
        rewrite run_calls_snoc. cbn [fst snd]. split.
        { intros i p Hi. apply lookup_app_Some in Hi as [Hi|[Hi' Hi]].
          - destruct (H5 _ _ Hi) as (d & r & v & v' & E1 & E2 & E3 & E4 & E5 & E6).
            exists d, r, v, v'. rewrite app_comm_cons. split_and!; try done; by apply lookup_app_l_Some.
          - apply list_lookup_singleton_Some in Hi as [Hi <-].
            assert (i = length ws) as -> by lia.
            eexists c, _, _, _. split_and!.
            + by rewrite lookup_app_r, Nat.sub_diag by lia.
            + done.
            + rewrite lookup_app_r by lia. by rewrite Hlen, Nat.sub_diag.
            + rewrite app_comm_cons, lookup_app_l by (cbn; lia). rewrite <-H1.
              change (length vs) with (pred (length (st_keys s0 !! k :: vs))).
              rewrite <-last_lookup, last_cons. 
              instantiate (1 := st_keys (run_calls h s0).1 !! k). rewrite H6. by destruct (last vs).
            + rewrite lookup_app_r by lia. by rewrite H1, Nat.sub_diag.
            + by apply HT. }
        { by rewrite last_snoc. }
      + exists ws, vs. split; [done|]. split; [done|]. split; [done|]. split.
        { intros p d Hp Hd. apply lookup_app_Some in Hp as [Hp|[Hp' Hp]]; [by eapply H4|].
          by apply list_lookup_singleton_Some in Hp as [_ <-]. }
        rewrite run_calls_snoc. cbn [fst snd]. split.
        { intros i p Hi. destruct (H5 _ _ Hi) as (d & r & v & v' & E1 & E2 & E3 & E4 & E5 & E6).
          exists d, r, v, v'. split_and!; try done; by apply lookup_app_l_Some. }
        { by rewrite keeps_unwritten. }
  Qed.
End writers.

(** [out] are the calls [W] that have taken effect, in order, [vs] what is at [k] after each. *)
Definition wrote_in_turn (k : bytes) (scripts : list (list call)) (s0 : store) (W : call -> Prop)
  (T : call -> option value -> option value -> cres -> Prop) (sched : list nat) (x : system)
  (out : list (nat * nat)) (vs : list (option value)) : Prop :=
  length vs = length out /\ NoDup out /\ (length out <= length (concat scripts)) /\
  (forall i a, out !! i = Some a -> exists c r v v',
     call_at scripts a = Some c /\ W c /\
     (st_keys s0 !! k :: vs) !! i = Some v /\ vs !! i = Some v' /\ T c v v' r /\
     forall r', returned x a r' -> r' = r) /\
  (forall a c r, call_at scripts a = Some c -> W c -> returned x a r -> a ∈ out) /\
  (forall i j a b, out !! i = Some a -> out !! j = Some b -> before scripts s0 sched a b -> i < j) /\
  st_keys x.2 !! k = default (st_keys s0 !! k) (last vs).

Lemma writers k scripts s0 (W : call -> Prop) (T : call -> option value -> option value -> cres -> Prop) sched x :
  room_for_all scripts s0 -> simple_at k scripts s0 ->
  (forall c, issued scripts c -> (W c /\ about k c) \/ (~ W c /\ ~ may_write (c_req c) k)) ->
  (forall s c, issued scripts c -> W c -> room s ->
    let d := dispatch (c_env c) s (c_req c) (c_res c) in
    T c (st_keys s !! k) (st_keys d.1 !! k) d.2) ->
  sys_run sched (begin scripts s0) = Some x ->
  exists out vs, wrote_in_turn k scripts s0 W T sched x out vs.
Proof.
  intros Hroom Hsimple HW HT Hx.
  destruct (c85 _ _ _ _ _ Hroom Hsimple Hx) as [lin Hlin].
  destruct (Hlin (length sched) x) as [(h & Hf & Hn & Hk & Hcl) Hpre]; [done|by rewrite firstn_all|].
  set (l := lin (length sched)) in *.
  pose proof (Forall2_length _ _ _ Hf) as Hlen.
  assert (Hleng : length l <= length (concat scripts)) by (eapply order_length; [done|done]).
  assert (Hiss : Forall (fun c => issued scripts c) h).
  { apply Forall_lookup. intros p c Hp. destruct (Forall2_lookup_r _ _ _ _ _ Hf Hp) as (a & _ & Ha & _).
    by exists a. }
  destruct (wrote_all k s0 (fun c => issued scripts c /\ W c) T) with (P := issued scripts) (h := h)
    as (ws & vs & H1 & H2 & H3 & H4 & H5 & H6).
  { intros s c [Hc HWc] Hr. by apply HT. }
  { intros c Hc. destruct (HW c Hc) as [[? _]|[? ?]]; [by left|right; split; [by intros []|done]]. }
  { done. }
  { intros p Hp m. pose proof (run_calls_count (take p h) s0 m) as Hcnt.
    specialize (Hroom m). unfold lenN in *. rewrite take_length in Hcnt. lia. }
  assert (Hws : forall i p, ws !! i = Some p -> exists a, l !! p = Some a).
  { intros i p Hp. destruct (H5 _ _ Hp) as (c & r & v & v' & Hc & _).
    apply lookup_lt_is_Some. rewrite Hlen. by eapply lookup_lt_Some. }
  set (out := map (fun p => default (0, 0) (l !! p)) ws).
  assert (Hout : forall i a, out !! i = Some a -> exists p, ws !! i = Some p /\ l !! p = Some a).
  { intros i a Ha. unfold out in Ha.
    change (map ?f ws !! i) with ((f <$> ws) !! i) in Ha.
    apply list_lookup_fmap_inv in Ha as (p & -> & Hp). exists p. split; [done|].
    destruct (Hws _ _ Hp) as [a Ha]. by rewrite Ha. }
  assert (Hout' : forall i p a, ws !! i = Some p -> l !! p = Some a -> out !! i = Some a).
  { intros i p a Hi Hp. unfold out. change (map ?f ws !! i) with ((f <$> ws) !! i).
    rewrite list_lookup_fmap, Hi. cbn. by rewrite Hp. }
  assert (Hol : length out = length ws) by apply map_length.
  assert (Hno : NoDup out).
  { apply NoDup_alt. intros i j a Hi Hj. apply Hout in Hi as (p & Hi & Hp), Hj as (q & Hj & Hq).
    assert (p = q) as -> by (exact (NoDup_lookup _ _ _ _ Hn Hp Hq)).
    exact (NoDup_lookup _ _ _ _ H2 Hi Hj). }
  assert (Hat : forall p c, h !! p = Some c -> exists a, l !! p = Some a /\ call_at scripts a = Some c /\ about k c).
  { intros p c Hc. destruct (Forall2_lookup_r _ _ _ _ _ Hf Hc) as (a & Ha & Hca & Hab). eauto. }
  assert (Hplaced : forall a c r, call_at scripts a = Some c -> about k c -> returned x a r ->
    exists p, l !! p = Some a /\ (run_calls h s0).2 !! p = Some r).
  { intros [i j] c r Hc Hab (cl & Hi & Hj). destruct (Hcl i cl Hi) as [_ Hd]. by eapply Hd. }
  exists out, vs. split_and!; try done.
  - lia.
  - rewrite Hol, <-(map_length (fun p => default (0, 0) (l !! p)) ws).
    transitivity (length l); [|done]. apply submseteq_length, NoDup_submseteq; [done|].
    intros a [i Hi]%elem_of_list_lookup. apply Hout in Hi as (p & _ & Hp). by eapply elem_of_list_lookup_2.
  - intros i a Hi. apply Hout in Hi as (p & Hi & Hp).
    destruct (H5 _ _ Hi) as (c & r & v & v' & E1 & [_ E2] & E3 & E4 & E5 & E6).
    destruct (Hat _ _ E1) as (a' & Ha' & Hca & Hab). assert (a' = a) as -> by congruence.
    exists c, r, v, v'. split_and!; try done.
    intros r' Hr'. destruct (Hplaced _ _ _ Hca Hab Hr') as (p' & Hp' & Hr).
    assert (p' = p) as -> by (exact (NoDup_lookup _ _ _ _ Hn Hp' Hp)). congruence.
  - intros a c r Hc HWc Hr.
    assert (Hic : issued scripts c) by (by exists a).
    assert (about k c) as Hab by (destruct (HW c Hic) as [[_ ?]|[? _]]; done).
    destruct (Hplaced _ _ _ Hc Hab Hr) as (p & Hp & _).
    assert (h !! p = Some c) as Hpc.
    { destruct (Forall2_lookup_l _ _ _ _ _ Hf Hp) as (c' & Hc' & Hca & _). congruence. }
    destruct (elem_of_list_lookup_1 _ _ (H4 p c Hpc (conj Hic HWc))) as [i Hi].
    eapply elem_of_list_lookup_2. by eapply Hout'.
  - intros i j a b Hi Hj (n & y & r & Hn' & Hy & Hra & Hnb).
    apply Hout in Hi as (p & Hi & Hp), Hj as (q & Hj & Hq).
    apply (H3 i j p q); [done..|].
    destruct (Hlin n y Hn' Hy) as [(h' & Hf' & Hnd' & _ & Hcl') _].
    pose proof (Hpre n Hn') as [rest Hrest]. fold l in Hrest.
    destruct (H5 _ _ Hi) as (c & r0 & v & v' & E1 & _).
    destruct (Hat _ _ E1) as (a' & Ha' & Hca & Hab). assert (a' = a) as -> by congruence.
    destruct Hra as (cl & Hcl1 & Hcl2). destruct (Hcl' _ _ Hcl1) as [_ Hd].
    destruct a as [ai aj]. cbn in Hcl1, Hcl2.
    destruct (Hd aj r c Hcl2 Hca Hab) as (p' & Hp' & _).
    assert (p' = p) as ->.
    { eapply NoDup_lookup; [exact Hn| |exact Hp]. rewrite Hrest. by apply lookup_app_l_Some. }
    apply lookup_lt_Some in Hp'.
    destruct Hnb as (clb & Hb1 & Hb2). destruct (Hcl' _ _ Hb1) as [Hin _].
    destruct (decide (q < length (lin n))) as [Hlt|]; [|lia].
    rewrite Hrest, lookup_app_l in Hq by done.
    assert ((b.1, b.2) ∈ lin n) as Hbin by (destruct b; by eapply elem_of_list_lookup_2).
    apply Hin in Hbin. lia.
  - by rewrite Hk, H6.
Qed.

Lemma finished_returned scripts x a c : finished scripts x -> call_at scripts a = Some c ->
  exists r, returned x a r.
Proof.
  intros Hf Ha. destruct a as [i j]. unfold call_at in Ha. cbn in Ha.
  destruct (scripts !! i) as [sc|] eqn:Hi; [|done]. cbn in Ha.
  destruct (Forall2_lookup_l _ _ _ _ _ Hf Hi) as (cl & Hcl & Hlen).
  apply lookup_lt_Some in Ha. rewrite <-Hlen in Ha. apply lookup_lt_is_Some in Ha as [r Hr].
  exists r, cl. done.
Qed.

Lemma asks_arg0 req c kt k l : asks req c kt (k :: l) -> arg req 0 = Some k.
Proof. intros (_ & _ & _ & Ha). by rewrite Ha. Qed.

Lemma adds_int_about c k d : adds_int c k d ->
  about k c /\ one_update (c_req c) /\ r_command (c_req c) <> CDelete.
Proof.
  intros (cmd & kt & l & Hq & Hc). pose proof Hq as (Hcmd & _). unfold about, one_update.
  destruct Hc as [(-> & _ & [r ->] & _)|[(-> & _ & [r ->] & _)|(z & x & r & -> & _ & [[-> _]|[-> _]])]];
    rewrite Hcmd; (split; [|done]); (split; [by eapply asks_arg0|]); (split; [done|]); by right.
Qed.

(** ** C86 *)

Lemma c86 k scripts s0 z0 sched x :
  room_for_all scripts s0 -> ordinary k -> st_keys s0 !! k = Some (VInteger z0) ->
  i64_range z0 -> i64_range (z0 + Z.of_nat (length (concat scripts))) ->
  (forall c, issued scripts c ->
     (env_ok (c_env c) /\ adds_int c k 1) \/ ~ may_write (c_req c) k) ->
  sys_run sched (begin scripts s0) = Some x ->
  exists out : list (nat * nat), NoDup out /\
  (forall a, a ∈ out -> exists c, call_at scripts a = Some c /\ adds_int c k 1) /\
  (forall a c r, call_at scripts a = Some c -> adds_int c k 1 -> returned x a r ->
     exists i, out !! i = Some a /\
       responds (c_env c) (c_res c) (VInteger (z0 + 1 + Z.of_nat i)) r) /\
  (forall i j a b, out !! i = Some a -> out !! j = Some b -> before scripts s0 sched a b -> i < j) /\
  st_keys x.2 !! k = Some (VInteger (z0 + Z.of_nat (length out))).
Proof.
  intros Hroom Hk H0 Hr0 Hr1 Hall Hx.
  set (W := fun c => env_ok (c_env c) /\ adds_int c k 1).
  set (T := fun (c : call) (v v' : option value) (r : cres) =>
    forall z, v = Some (VInteger z) -> i64_range (z + 1) ->
      v' = Some (VInteger (z + 1)) /\ responds (c_env c) (c_res c) (VInteger (z + 1)) r).
  destruct (writers k scripts s0 W T sched x) as (out & vs & Hl & Hno & Hle & Hv & Hin & Hb & Hf); try done.
  - intros c Hc. split.
    + destruct (Hall c Hc) as [[_ Ha]|?]; [|by right]. left. by apply adds_int_about in Ha as [? _].
    + intros _ _. split; [by eexists|]. intros d Hd Hdel Harg.
      destruct (Hall d Hd) as [[_ Ha]|Hn].
      * by apply adds_int_about in Ha as (_ & _ & Ha).
      * apply Hn. unfold may_write, names. rewrite Hdel. split; [done|by left].
  - intros c Hc. destruct (Hall c Hc) as [[He Ha]|Hn].
    + left. split; [by split|]. by apply adds_int_about in Ha as [? _].
    + right. split; [|done]. intros [_ Ha]. by apply adds_int_writes in Ha.
  - intros s c _ [He (cmd & kt & l & Hq & Hc)] Hr dd z Hz Hz1. subst dd.
    destruct (c21_exact (c_env c) s (c_req c) (c_res c) cmd kt l k 1 z) as [E1 E2]; try done.
    { by left. }
    rewrite E2. split; [by rewrite lookup_insert|done].
  - assert (Hvs : forall i v, vs !! i = Some v -> v = Some (VInteger (z0 + 1 + Z.of_nat i)) /\
      forall a c r, out !! i = Some a -> call_at scripts a = Some c -> returned x a r ->
        responds (c_env c) (c_res c) (VInteger (z0 + 1 + Z.of_nat i)) r).
    { induction i as [i IH] using lt_wf_ind. intros v Hi.
      assert (Hlt : i < length out) by (rewrite <-Hl; by eapply lookup_lt_Some).
      destruct (lookup_lt_is_Some_2 _ _ Hlt) as [a Ha].
      destruct (Hv _ _ Ha) as (c & r & u & u' & E1 & E2 & E3 & E4 & E5 & E6).
      assert (u' = v) as -> by congruence.
      assert (Hu : u = Some (VInteger (z0 + Z.of_nat i))).
      { destruct i as [|i]; cbn in E3.
        - injection E3 as <-. rewrite H0. do 2 f_equal. lia.
        - destruct (IH i ltac:(lia) _ E3) as [-> _]. do 2 f_equal. lia. }
      destruct (E5 _ Hu) as [Hw Hres]; [unfold i64_range in *; lia|].
      assert (Heq : (z0 + Z.of_nat i + 1 = z0 + 1 + Z.of_nat i)%Z) by lia. rewrite Heq in *.
      split; [done|].
      intros a' c' r' Ha' Hc' Hr'. assert (a' = a) as -> by congruence.
      assert (c' = c) as -> by congruence. by rewrite (E6 _ Hr'). }
    exists out. split; [done|]. split; [|split; [|split]].
    + intros a [i Hi]%elem_of_list_lookup. destruct (Hv _ _ Hi) as (c & r & u & u' & E1 & [_ E2] & _). eauto.
    + intros a c r Hc Ha Hr.
      assert (W c) as HWc.
      { destruct (Hall c ltac:(by exists a)) as [?|Hn]; [done|]. by apply adds_int_writes in Ha. }
      destruct (elem_of_list_lookup_1 _ _ (Hin _ _ _ Hc HWc Hr)) as [i Hi]. exists i. split; [done|].
      assert (Hlt : i < length vs) by (rewrite Hl; by eapply lookup_lt_Some).
      destruct (lookup_lt_is_Some_2 _ _ Hlt) as [v Hvi].
      destruct (Hvs _ _ Hvi) as [_ Hres]. by eapply Hres.
    + done.
    + rewrite Hf, last_lookup, <-Hl. destruct (vs !! pred (length vs)) as [v|] eqn:E.
      * destruct (Hvs _ _ E) as [-> _]. cbn. apply lookup_lt_Some in E. do 2 f_equal. lia.
      * apply lookup_ge_None in E. cbn. rewrite H0. do 2 f_equal. lia.
Qed.

(** ** C87 *)

Lemma append_to_app v l1 l2 w : append_to v l1 = Some w -> append_to v (l1 ++ l2) = append_to w l2.
Proof.
  destruct v; cbn; try done.
  - intros [= <-]. cbn. by rewrite concat_app, app_assoc.
  - intros [= <-]. cbn. by rewrite app_assoc.
  - rewrite forallb_app. destruct (forallb utf8_valid l1); [|done]. intros [= <-]. cbn.
    destruct (forallb utf8_valid l2); [|done]. by rewrite concat_app, app_assoc.
Qed.

Lemma append_to_kind v l w : append_to v l = Some w -> kind w = kind v.
Proof. destruct v; cbn; try done; try (by intros [= <-]). destruct (forallb _ _); [by intros [= <-]|done]. Qed.

Lemma append_to_same v w l : kind w = kind v -> is_Some (append_to v l) -> is_Some (append_to w l).
Proof.
  destruct v, w; cbn; try done; try (by intros _ [? [=]]).
  destruct (forallb _ _); [done|by intros _ [? [=]]].
Qed.

Lemma c87 k scripts s0 t v0 sched x :
  room_for_all scripts s0 -> ordinary k -> st_keys s0 !! k = Some v0 -> kind v0 = t ->
  is_Some (append_to v0 []) ->
  (forall c, issued scripts c ->
     (env_ok (c_env c) /\ exists l, appends c k t l /\ is_Some (append_to v0 l)) \/
     ~ may_write (c_req c) k) ->
  sys_run sched (begin scripts s0) = Some x ->
  exists (out : list (nat * nat)) (ls : list (list bytes)), NoDup out /\
  Forall2 (fun a l => exists c, call_at scripts a = Some c /\ appends c k t l) out ls /\
  (forall a c l r, call_at scripts a = Some c -> appends c k t l -> returned x a r ->
     exists i v, out !! i = Some a /\ append_to v0 (concat (take (S i) ls)) = Some v /\
       responds (c_env c) (c_res c) v r) /\
  (forall i j a b, out !! i = Some a -> out !! j = Some b -> before scripts s0 sched a b -> i < j) /\
  exists v, append_to v0 (concat ls) = Some v /\ st_keys x.2 !! k = Some v.
Proof.
  intros Hroom Hk H0 Ht Hnil Hall Hx.
  set (W := fun c => env_ok (c_env c) /\ exists l, appends c k t l /\ is_Some (append_to v0 l)).
  set (T := fun (c : call) (v v' : option value) (r : cres) => exists l, appends c k t l /\
    forall w, v = Some w -> kind w = t ->
      exists w', append_to w l = Some w' /\ v' = Some w' /\ responds (c_env c) (c_res c) w' r).
  assert (Happ : forall c l, appends c k t l -> about k c /\ may_write (c_req c) k /\ r_command (c_req c) = CAppend).
  { intros c l Hq. pose proof Hq as (Hc & Hkt & _). pose proof (asks_arg0 _ _ _ _ _ Hq) as Ha.
    unfold about, may_write, names, one_update. rewrite Hc. split; [|split; [split; [done|by left]|done]].
    split; [done|]. split; [done|]. right. by rewrite Hkt. }
  destruct (writers k scripts s0 W T sched x) as (out & vs & Hl & Hno & Hle & Hv & Hin & Hb & Hf); try done.
  - intros c Hc. split.
    + destruct (Hall c Hc) as [(_ & l & Ha & _)|?]; [|by right]. left. by eapply Happ.
    + intros _ _. split; [by eexists|]. intros d Hd Hdel Harg.
      destruct (Hall d Hd) as [(_ & l & Ha & _)|Hn].
      * apply Happ in Ha as (_ & _ & Ha). congruence.
      * apply Hn. unfold may_write, names. rewrite Hdel. split; [done|by left].
  - intros c Hc. destruct (Hall c Hc) as [(He & l & Ha & Hs)|Hn].
    + left. split; [by split; [|exists l]|]. by eapply Happ.
    + right. split; [|done]. intros (_ & l & Ha & _). apply Hn. by eapply Happ.
  - intros s c _ (He & l & Hq & Hs) Hr dd. subst dd. exists l. split; [done|]. intros w Hw Hkw.
    destruct (append_to_same v0 w l) as [w' Hw']; [congruence|done|].
    destruct (c24_append (c_env c) s (c_req c) (c_res c) (Some t) k l t w w') as [E1 E2]; try done.
    { by left. }
    { split; [done|]. by left. }
    exists w'. rewrite E2. split; [done|]. split; [by rewrite lookup_insert|done].
  - (* the items of each *)
    assert (Hls : exists ls : list (list bytes), length ls = length out /\
      forall i a l, out !! i = Some a -> ls !! i = Some l -> exists c r v v',
       call_at scripts a = Some c /\ appends c k t l /\
       (st_keys s0 !! k :: vs) !! i = Some v /\ vs !! i = Some v' /\
       (forall w, v = Some w -> kind w = t -> exists w', append_to w l = Some w' /\ v' = Some w' /\
          responds (c_env c) (c_res c) w' r) /\
       forall r', returned x a r' -> r' = r).
    { assert (Hq : forall n, n <= length out -> exists ls : list (list bytes), length ls = n /\
        forall i a l, out !! i = Some a -> ls !! i = Some l -> exists c r v v',
         call_at scripts a = Some c /\ appends c k t l /\
         (st_keys s0 !! k :: vs) !! i = Some v /\ vs !! i = Some v' /\
         (forall w, v = Some w -> kind w = t -> exists w', append_to w l = Some w' /\ v' = Some w' /\
            responds (c_env c) (c_res c) w' r) /\
         forall r', returned x a r' -> r' = r); [|by apply Hq].
      induction n as [|n IH]; intros Hn; [by exists []|].
      destruct IH as (ls & Hlen & IH); [lia|].
      destruct (lookup_lt_is_Some_2 out n) as [a Ha]; [lia|].
      destruct (Hv _ _ Ha) as (c & r & v & v' & E1 & E2 & E3 & E4 & (l & E5 & E5') & E6).
      exists (ls ++ [l]). split; [rewrite app_length; cbn; lia|].
      intros i a' l' Ha' Hl'. apply lookup_app_Some in Hl' as [Hl'|[Hi Hl']]; [by eapply IH|].
      apply list_lookup_singleton_Some in Hl' as [Hi' <-]. assert (i = n) as -> by lia.
      assert (a' = a) as -> by congruence. exists c, r, v, v'. done. }
    destruct Hls as (ls & Hlls & Hls).
    assert (Hvs : forall i v, vs !! i = Some v -> exists w,
      append_to v0 (concat (take (S i) ls)) = Some w /\ v = Some w /\
      forall a c r, out !! i = Some a -> call_at scripts a = Some c -> returned x a r ->
        responds (c_env c) (c_res c) w r).
    { induction i as [i IH] using lt_wf_ind. intros v Hi.
      assert (Hlt : i < length out) by (rewrite <-Hl; by eapply lookup_lt_Some).
      destruct (lookup_lt_is_Some_2 out i) as [a Ha]; [done|].
      destruct (lookup_lt_is_Some_2 ls i) as [l Hli]; [lia|].
      destruct (Hls _ _ _ Ha Hli) as (c & r & u & u' & E1 & E2 & E3 & E4 & E5 & E6).
      assert (u' = v) as -> by congruence.
      assert (Hu : exists w, append_to v0 (concat (take i ls)) = Some w /\ u = Some w).
      { destruct i as [|i]; cbn in E3.
        - injection E3 as <-. rewrite H0. destruct Hnil as [w Hw]. exists w. cbn [take concat]. split; [done|].
          rewrite <-Hw. destruct v0; cbn; try done; cbn in Hw; by rewrite app_nil_r.
        - destruct (IH i ltac:(lia) _ E3) as (w & Hw & -> & _). eauto. }
      destruct Hu as (w & Hw & ->).
      destruct (E5 w eq_refl) as (w' & Hw' & -> & Hres); [rewrite <-Ht; by eapply append_to_kind|].
      exists w'. split; [|split; [done|]].
      - rewrite (take_S_r _ _ _ Hli), concat_app. cbn [concat]. rewrite app_nil_r.
        by rewrite (append_to_app _ _ _ _ Hw).
      - intros a' c' r' Ha' Hc' Hr'. assert (a' = a) as -> by congruence.
        assert (c' = c) as -> by congruence. by rewrite (E6 _ Hr'). }
    exists out, ls. split; [done|]. split; [|split; [|split]].
    + apply Forall2_same_length_lookup. split; [done|]. intros i a l Ha Hli.
      destruct (Hls _ _ _ Ha Hli) as (c & r & u & u' & E1 & E2 & _). eauto.
    + intros a c l r Hc Ha Hr.
      assert (W c) as HWc.
      { destruct (Hall c ltac:(by exists a)) as [?|Hn]; [done|]. destruct Hn. by eapply Happ. }
      destruct (elem_of_list_lookup_1 _ _ (Hin _ _ _ Hc HWc Hr)) as [i Hi].
      assert (Hlt : i < length vs) by (rewrite Hl; by eapply lookup_lt_Some).
      destruct (lookup_lt_is_Some_2 _ _ Hlt) as [v Hvi].
      destruct (Hvs _ _ Hvi) as (w & Hw & _ & Hres). exists i, w. split_and!; try done. by eapply Hres.
    + done.
    + rewrite Hf, last_lookup. destruct (vs !! pred (length vs)) as [v|] eqn:E.
      * destruct (Hvs _ _ E) as (w & Hw & -> & _). exists w. split; [|done].
        apply lookup_lt_Some in E. by rewrite take_ge in Hw by lia.
      * apply lookup_ge_None in E. destruct ls as [|l ls]; [|cbn in Hlls; lia]. cbn. 
        destruct Hnil as [w Hw]. exists w. split; [done|]. rewrite H0, <-Hw.
        destruct v0; cbn; try done; cbn in Hw; by rewrite app_nil_r.
Qed.

(** ** C88 *)

Lemma c88 k scripts s0 v0 sched x :
  room_for_all scripts s0 -> st_keys s0 !! k = Some v0 ->
  (forall c, issued scripts c -> (env_ok (c_env c) /\ deletes c k) \/ ~ may_write (c_req c) k) ->
  sys_run sched (begin scripts s0) = Some x ->
  exists won : option (nat * nat),
  st_keys x.2 !! k = match won with None => Some v0 | Some _ => None end /\
  (forall b, won = Some b -> exists c, call_at scripts b = Some c /\ deletes c k) /\
  (forall a c r, call_at scripts a = Some c -> deletes c k -> returned x a r ->
     exists b, won = Some b /\ ~ before scripts s0 sched a b /\
       if decide (a = b) then responds (c_env c) (c_res c) (VBytes k) r
       else r = CErr EPreconditionFailed (c_res c)) /\
  (finished scripts x -> (exists c, issued scripts c /\ deletes c k) ->
   exists b r, won = Some b /\ returned x b r).
Proof.
  intros Hroom H0 Hall Hx.
  set (W := fun c => env_ok (c_env c) /\ deletes c k).
  set (T := fun (c : call) (v v' : option value) (r : cres) => v' = None /\
    match v with
    | Some _ => responds (c_env c) (c_res c) (VBytes k) r
    | None => r = CErr EPreconditionFailed (c_res c)
    end).
  assert (Hdel : forall c, deletes c k -> about k c /\ may_write (c_req c) k /\ ~ one_update (c_req c)).
  { intros c [l Hq]. pose proof Hq as (Hc & Hkt & _). pose proof (asks_arg0 _ _ _ _ _ Hq) as Ha.
    unfold about, may_write, names, one_update, one_access. rewrite Hc.
    split; [|split; [split; [done|by left]|tauto]].
    split; [done|]. split; [done|]. by left. }
  destruct (writers k scripts s0 W T sched x) as (out & vs & Hl & Hno & Hle & Hv & Hin & Hb & Hf); try done.
  - intros c Hc. split.
    + destruct (Hall c Hc) as [[_ Ha]|?]; [|by right]. left. by eapply Hdel.
    + intros Hu Harg. destruct (Hall c Hc) as [[_ Ha]|Hn]; [by apply Hdel in Ha as (_ & _ & ?)|].
      destruct Hn. unfold one_update in Hu. unfold may_write, names.
      destruct (r_command (c_req c)); try done; (split; [done|by left]).
  - intros c Hc. destruct (Hall c Hc) as [[He Ha]|Hn].
    + left. split; [by split|]. by eapply Hdel.
    + right. split; [|done]. intros [_ Ha]. apply Hn. by eapply Hdel.
  - intros s c _ [He [l Hq]] Hr dd. subst dd. unfold T. destruct (st_keys s !! k) as [v|] eqn:Hk.
    + destruct (c26_present (c_env c) s (c_req c) (c_res c) k l v) as [E1 E2]; try done.
      rewrite E2. split; [by rewrite lookup_delete|done].
    + destruct (c26_absent (c_env c) s (c_req c) (c_res c) k l) as [E1 E2]; try done.
      by rewrite E2.
  - assert (Hret : forall a c r, call_at scripts a = Some c -> deletes c k -> returned x a r -> exists i,
      out !! i = Some a /\ match i with
        | 0 => responds (c_env c) (c_res c) (VBytes k) r
        | _ => r = CErr EPreconditionFailed (c_res c) end).
    { intros a c r Hc Ha Hr.
      assert (W c) as HWc.
      { destruct (Hall c ltac:(by exists a)) as [?|Hn]; [done|]. destruct Hn. by apply Hdel. }
      destruct (elem_of_list_lookup_1 _ _ (Hin _ _ _ Hc HWc Hr)) as [i Hi]. exists i. split; [done|].
      destruct (Hv _ _ Hi) as (c' & r' & u & u' & E1 & E2 & E3 & E4 & [E5 E5'] & E6).
      assert (c' = c) as -> by congruence. rewrite (E6 _ Hr).
      destruct i as [|i]; cbn in E3.
      - injection E3 as <-. by rewrite H0 in E5'.
      - assert (i < length out) as Hlt by (apply lookup_lt_Some in Hi; lia).
        destruct (lookup_lt_is_Some_2 _ _ Hlt) as [a' Ha'].
        destruct (Hv _ _ Ha') as (c' & r'' & w & w' & F1 & F2 & F3 & F4 & [F5 _] & _).
        assert (u = None) as -> by (change (vs !! i = Some u) in E3; rewrite F5 in F4; rewrite F4 in E3; by injection E3). done. }
    exists (out !! 0).
    assert (Hwon : forall b, out !! 0 = Some b -> exists c, call_at scripts b = Some c /\ deletes c k).
    { intros b H. destruct (Hv _ _ H) as (c & r & u & u' & E1 & [_ E2] & _). eauto. }
    assert (Hany : forall i a, out !! i = Some a -> exists b, out !! 0 = Some b).
    { intros i a Hi. apply lookup_lt_Some in Hi. apply lookup_lt_is_Some. lia. }
    split; [|split; [|split]].
    + rewrite Hf, last_lookup. destruct (vs !! pred (length vs)) as [v|] eqn:E.
      * apply lookup_lt_Some in E as Hlt. 
        destruct (lookup_lt_is_Some_2 out (pred (length vs))) as [a Ha]; [lia|].
        destruct (Hany _ _ Ha) as [b ->].
        destruct (Hv _ _ Ha) as (c & r & u & u' & E1 & E2 & E3 & E4 & [-> _] & _). cbn. congruence.
      * apply lookup_ge_None in E. destruct out; [done|cbn in Hl; lia].
    + done.
    + intros a c r Hc Ha Hr. destruct (Hret _ _ _ Hc Ha Hr) as (i & Hi & Hres).
      destruct (Hany _ _ Hi) as [b Hb0]. exists b. split; [done|]. split.
      * intros Hbef. specialize (Hb _ _ _ _ Hi Hb0 Hbef). lia.
      * destruct (decide (a = b)) as [->|Hne].
        -- assert (i = 0) as -> by (exact (NoDup_lookup _ _ _ _ Hno Hi Hb0)). done.
        -- destruct i as [|i]; [congruence|done].
    + intros Hfin (c & [a Hc] & Hd). destruct (finished_returned _ _ _ _ Hfin Hc) as [r Hr].
      destruct (Hret _ _ _ Hc Hd Hr) as (i & Hi & _). destruct (Hany _ _ Hi) as [b Hb0].
      destruct (Hwon _ Hb0) as (c' & Hc' & _). destruct (finished_returned _ _ _ _ Hfin Hc') as [r' Hr'].
      exists b, r'. done.
Qed.
