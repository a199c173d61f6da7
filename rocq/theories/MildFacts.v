(** Lemmas behind C130: what a call that reports an error has changed. *)
From Verif Require Import Locks LockSpec LockFacts LockScripts LockScriptSpec LockScriptFacts.
From Verif Require Import Bytes BytesFacts Utf8 Float64 Value CommandId Request RequestSpec RequestFacts Response RespContext WireSpec
  EngineSpec Metrics Prog ProgFacts Commands CommandFacts HistorySpec EngineFacts EngineProps Concurrent ConcSpec ConcFacts Scripts LinSpec
  LinFacts KeyLinSpec KeyLin KeyLinFacts IsoSpec IsoFacts ScriptInv MomentSpec MomentFacts
  Client ClientSpec ClientFacts ClientProps MemTasks MemTaskSpec MemTaskFacts MemRaceSpec MemRaceFacts MemForwardSpec MemForward
  SeenSpec SeenFacts WroteSpec WroteFacts LedgerSpec LedgerFacts SpareSpec LastingSpec LastingFacts MildSpec.
From Verif Require MemLin MemFair.
From stdpp Require Import gmap list.
From Coq Require Import NArith ZArith Lia.
From Coq Require Import ZifyBool ZifyNat ZifyN.

(** ** Programs that report no error *)

Definition is_err (r : cres) : Prop := match r with CErr _ _ => True | _ => False end.

(** Whatever it finds, the program reports no error. *)
Fixpoint no_err (p : prog) : Prop :=
  match p with
  | PRet r => ~ is_err r
  | PContains _ q => forall o, no_err (q o)
  | PGet _ q => forall o, no_err (q o)
  | PInsert _ _ q => no_err q
  | PRemove _ q => forall o, no_err (q o)
  | PKoi _ _ _ q => forall r, no_err (q r)
  | PKoiIns _ _ _ q => forall r, no_err (q r)
  | PCounter _ q => forall v, no_err (q v)
  | PIncr _ _ q => no_err q
  end.

(** From the time [t] on, the changes satisfy [H] as long as the program can still report an error. *)
Fixpoint wary (M : bytes -> nat -> option value -> Prop) (own : bytes -> Prop)
  (H : bytes -> nat -> option value -> option value -> Prop) (t : nat) (p : prog) : Prop :=
  let koi k (u : value -> value * cres) q :=
    own k /\ forall v, no_err (q (u v).2) \/ ((u v).1 = v /\ forall n, t <= n -> wary M own H n (q (u v).2)) in
  match p with
  | PRet _ => True
  | PContains k q => forall n o, t <= n -> M k n o -> wary M own H n (q (match o with Some _ => true | None => false end))
  | PGet k q => forall n o, t <= n -> M k n o -> wary M own H n (q o)
  | PInsert k v q => no_err q
  | PRemove k q => forall o, no_err (q o) \/
      (own k /\ (forall n, t <= n -> H k n o None) /\ forall n, t <= n -> wary M own H n (q o))
  | PKoi k d u q => (forall m n o, t <= m -> m <= n -> M k m None -> H k n o (Some d)) /\ koi k u q
  | PKoiIns k d u q => (forall n o, t <= n -> H k n o (Some d)) /\ koi k u q
  | PCounter _ q => forall v, wary M own H t (q v)
  | PIncr _ _ q => wary M own H t q
  end.

Lemma no_err_pbind p f : (forall r, ~ is_err r -> no_err (f r)) -> no_err p -> no_err (pbind p f).
Proof.
  intros Hf. induction p as [r|k c IH|k c IH|k v c IH|k c IH|k d u c IH|k d u c IH|m c IH|d m c IH]; cbn; auto.
Qed.

Lemma wary_pbind M own H p f : (forall r, ~ is_err r -> no_err (f r)) -> (forall t r, wary M own H t (f r)) ->
  forall t, wary M own H t p -> wary M own H t (pbind p f).
Proof.
  intros Hn Hf. induction p as [r|k c IH|k c IH|k v c IH|k c IH|k d u c IH|k d u c IH|m c IH|d m c IH];
    intros t Hp; cbn in *; eauto.
  - by apply no_err_pbind.
  - intros o. destruct (Hp o) as [Ho|(H1 & H2 & H3)]; [left; by apply no_err_pbind|right]. eauto.
  - destruct Hp as (H1 & H2 & H3). split_and!; [done|done|]. intros v.
    destruct (H3 v) as [Ho|(H4 & H5)]; [left; by apply no_err_pbind|right]. eauto.
  - destruct Hp as (H1 & H2 & H3). split_and!; [done|done|]. intros v.
    destruct (H3 v) as [Ho|(H4 & H5)]; [left; by apply no_err_pbind|right]. eauto.
Qed.

Lemma wary_dispatch M own H t e req res : wary M own H t (command_prog e req res) -> wary M own H t (dispatch_prog e req res).
Proof. intros Hp. unfold dispatch_prog. apply wary_pbind; [|by intros ? []|done]. intros []; cbn; tauto. Qed.

(** ** The commands *)

Section commands.
  Context (sh : shards) (scripts : list (list call)) (s0 : store) (sched : list (nat * list value)).
  Context (b : nat * nat) (c : call).
  Notation M := (noticed sh scripts s0 sched b).
  Notation C := (replaced sh scripts s0 sched b).
  Notation H := (mild sh scripts s0 sched b c).
  Definition own (k : bytes) : Prop := arg (c_req c) 0 = Some k.

  (** An update that leaves the value as it was if it reports an error. *)
  Definition careful (u : value -> value * cres) : Prop := forall v, ~ is_err (u v).2 \/ (u v).1 = v.

  Lemma careful_variant {A} res (as_ : value -> option A) f : (forall v a, ~ is_err (f v a).2) ->
    careful (fun v => with_variant res as_ v (f v)).
  Proof. intros Hf v. unfold with_variant. destruct (as_ v) as [a|]; [left; apply Hf|by right]. Qed.

  Lemma wary_koi t0 k t u : own k -> begins_as (c_req c) t ->
    r_command (c_req c) = CSet \/ r_command (c_req c) = CAppend \/ r_command (c_req c) = CIncrement \/
    r_command (c_req c) = CDecrement \/ r_command (c_req c) = CIncrementBy \/ r_command (c_req c) = CDecrementBy ->
    careful u -> wary M own H t0 (key_or_insert_with (c_env c) k (blank t) u).
  Proof.
    intros Hk Ht Hcmd Hu. unfold key_or_insert_with, guarded. destruct (starts_with k reserved_prefix); [done|].
    destruct (debug (c_env c) && _); [done|]. cbn. split_and!; [|done|].
    - intros m n o _ Hmn HM. right. unfold own in Hk.
      destruct Hcmd as [E|[E|[E|[E|[E|E]]]]]; rewrite E; (split; [done|]; right; by exists t, m).
    - intros v. destruct (Hu v) as [Hv|Hv]; [by left|by right].
  Qed.

  Lemma wary_set t0 k t : own k -> begins_as (c_req c) t -> r_command (c_req c) = CSet ->
    wary M own H t0 (Commands.set_typed (c_env c) (c_req c) (c_res c) k t).
  Proof.
    intros Hk Ht E.
    assert (Hw : forall A (as_ : value -> option A) new kept out,
      wary M own H t0 (set_with (c_env c) (c_res c) k (blank t) as_ new kept out)).
    { intros A as_ new kept out. cbn. intros o. right. split_and!; [done| |].
      - intros n _. right. rewrite E. split; [done|]. by left.
      - intros n _. apply wary_koi; [done|done|tauto|]. apply (careful_variant _ _ (fun v _ => match out with Ok b => (new, COk b) | Panic => ((if kept then v else new), CPanic) end)). intros v a. destruct out; cbn; tauto. }
    unfold Commands.set_typed. destruct t; match goal with |- wary _ _ _ _ (match ?x with Some _ => _ | None => _ end) => destruct x end;
      try done; apply Hw.
  Qed.

  Lemma cres_no_err x : ~ is_err (cres_of x).
  Proof. destruct x; cbn; tauto. Qed.

  Lemma wary_command t0 : wary M own H t0 (command_prog (c_env c) (c_req c) (c_res c)).
  Proof.
    assert (Hkey : forall k, key (c_req c) = Some k -> own k).
    { intros k. unfold own, key. destruct (r_command (c_req c)); cbn; try done. }
    assert (Href : forall t k q, (forall n o, wary M own H n (q o)) -> wary M own H t (key_ref (c_env c) k q)).
    { intros t k q Hq. unfold key_ref, guarded. destruct (starts_with k reserved_prefix); [done|].
      destruct (debug (c_env c) && _); [done|]. cbn [wary]. intros n o _ _. apply Hq. }
    assert (Hint : forall k z, own k -> begins_as (c_req c) KTInteger ->
      r_command (c_req c) = CIncrement \/ r_command (c_req c) = CDecrement \/ r_command (c_req c) = CIncrementBy \/
      r_command (c_req c) = CDecrementBy -> wary M own H t0 (increment_int_by (c_env c) k z (c_res c))).
    { intros k z Hk Hb Hc. apply (wary_koi _ _ KTInteger); [done|done|tauto|]. apply (careful_variant _ _ (fun _ a => _)). intros v a.
      destruct (i64_checked _ _); cbn; tauto. }
    assert (Hflo : forall k z, own k -> begins_as (c_req c) KTInteger ->
      r_command (c_req c) = CIncrement \/ r_command (c_req c) = CDecrement \/ r_command (c_req c) = CIncrementBy \/
      r_command (c_req c) = CDecrementBy -> wary M own H t0 (increment_float_by (c_env c) k z (c_res c))).
    { intros k z Hk Hb Hc. apply (wary_koi _ _ KTInteger); [done|done|tauto|]. apply (careful_variant _ _ (fun _ a => _)). intros v a. cbn. tauto. }
    unfold begins_as in Hint, Hflo.
    unfold command_prog in *. destruct (r_command (c_req c)) eqn:E.
    - unfold cmd_increment. destruct (key (c_req c)) as [k|] eqn:Ek; [|done].
      destruct (wants_float (c_req c)); [apply Hflo|apply Hint]; auto.
    - unfold cmd_decrement. destruct (key (c_req c)) as [k|] eqn:Ek; [|done].
      destruct (wants_float (c_req c)); [apply Hflo|apply Hint]; auto.
    - unfold cmd_increment_by. destruct (key (c_req c)) as [k|] eqn:Ek; [|done].
      destruct (typed_arg convert_i64 (c_req c) 1); [apply Hint; auto|].
      destruct (typed_arg convert_f64 (c_req c) 1); [apply Hflo; auto|done].
    - unfold cmd_decrement_by. destruct (key (c_req c)) as [k|] eqn:Ek; [|done].
      destruct (typed_arg convert_i64 (c_req c) 1).
      { destruct (i64_checked _ _); [apply Hint; auto|done]. }
      destruct (typed_arg convert_f64 (c_req c) 1); [apply Hflo; auto|done].
    - unfold cmd_set. destruct (key (c_req c)) as [k|] eqn:Ek; [|done]. destruct (arg (c_req c) 1) eqn:Ea; [|done].
      unfold resolve_type. destruct (r_key_type (c_req c)) as [t|] eqn:Et.
      + apply wary_set; [by apply Hkey| |done]. unfold begins_as. rewrite E, Et. by right.
      + cbn [wary]. intros n o _ _. apply wary_set; [by apply Hkey| |done]. unfold begins_as. rewrite E, Et. by left.
    - unfold cmd_get. destruct (key (c_req c)) as [k|]; [|done]. apply Href. intros n [v|]; [|done].
      destruct (r_key_type (c_req c)); [|done]. by case_decide.
    - unfold cmd_delete. destruct (r_key_type (c_req c)); [done|]. destruct (key (c_req c)) as [k|] eqn:Ek; [|done].
      cbn. intros [v|]; [left; apply cres_no_err|right]. split_and!; [by apply Hkey|by left|done].
    - unfold cmd_exists. destruct (r_key_type (c_req c)); [done|]. destruct (args_all (c_req c)) as [a|]; [|done].
      clear Href Hint Hflo. revert t0. induction (arguments_collect a) as [|k l IH]; intros t0; [done|]. cbn. by intros n [v|] _ _.
    - unfold cmd_is. destruct (r_key_type (c_req c)) as [kt|]; [|done]. destruct (args_all (c_req c)) as [a|]; [|done].
      clear Href Hint Hflo. revert t0. induction (arguments_collect a) as [|k l IH]; intros t0; [done|]. cbn. intros n o _ _. by destruct (match o with Some v => _ | None => _ end).
    - unfold cmd_rename. destruct (r_key_type (c_req c)); [done|]. destruct (arg (c_req c) 0) as [k|] eqn:Ek; [|done].
      destruct (arg (c_req c) 1) as [d|] eqn:Ed; [|done]. cbn. intros n1 [v1|] Hn1 _; [|done]. cbn. intros n2 [v2|] Hn2 HM2; [done|]. cbn.
      intros [v|]; [left|right; split_and!; [done|by left|done]]. cbn. apply cres_no_err.
    - unfold cmd_type. destruct (key (c_req c)) as [k|]; [|done]. destruct (r_key_type (c_req c)); [done|]. cbn. by intros n [v|].
    - unfold cmd_append. destruct (arg (c_req c) 0) as [k|] eqn:Ek; [|done]. destruct (args_from (c_req c) 1) as [a|] eqn:Ea; [|done].
      assert (Hcont : forall n t, r_key_type (c_req c) = None \/ r_key_type (c_req c) = Some t ->
        wary M own H n (match t with KTBytes => append_bytes (c_env c) a (c_res c) k
        | KTList => append_list (c_env c) a (c_res c) k | KTString => append_string (c_env c) a (c_res c) k
        | _ => fail (c_res c) EKeyTypeDifferent end)).
      { intros n t Ht. destruct t; try done.
        - apply (wary_koi _ _ KTBytes); [done|unfold begins_as; by rewrite E|tauto|]. apply (careful_variant _ _ (fun _ a => _)). intros v x. apply cres_no_err.
        - apply (wary_koi _ _ KTString); [done|unfold begins_as; by rewrite E|tauto|]. apply (careful_variant _ _ (fun _ a => _)). intros v x. apply cres_no_err.
        - apply (wary_koi _ _ KTList); [done|unfold begins_as; by rewrite E|tauto|]. apply (careful_variant _ _ (fun _ a => _)). intros v x. apply cres_no_err. }
      unfold resolve_type. destruct (r_key_type (c_req c)) as [t|] eqn:Et; [apply (Hcont t0 t); by right|].
      cbn [wary]. intros n o _ _. apply (Hcont n (match o with Some v => kind v | None => KTBytes end)). by left.
    - unfold cmd_length, resolve_type. destruct (key (c_req c)) as [k|]; [|done].
      assert (Hr : forall n t, wary M own H n (match t with
        | KTBytes => read_variant (c_env c) (c_res c) k as_bytes (fun bs => COk (write_int (c_res c) (Z.of_N (lenN bs))))
        | KTList => read_variant (c_env c) (c_res c) k as_list (fun l => COk (write_int (c_res c) (Z.of_N (lenN l))))
        | KTMap => read_variant (c_env c) (c_res c) k as_map (fun m => COk (write_int (c_res c) (Z.of_N (N.of_nat (size m)))))
        | KTSet => read_variant (c_env c) (c_res c) k as_set (fun s => COk (write_int (c_res c) (Z.of_N (N.of_nat (size s)))))
        | KTString => read_variant (c_env c) (c_res c) k as_string (fun s => COk (write_int (c_res c) (Z.of_N (char_count s))))
        | _ => fail (c_res c) EKeyTypeInvalid end)).
      { intros n []; try done; unfold read_variant; apply Href; intros n' [v|]; try done; by destruct v. }
      destruct (r_key_type (c_req c)) as [t|]; [by apply (Hr t0 t)|]. cbn [wary]. intros n o _ _.
      by apply (Hr n (match o with Some v => kind v | None => KTBytes end)).
    - unfold cmd_keys, resolve_type. destruct (key (c_req c)) as [k|]; [|done].
      assert (Hr : forall n t, wary M own H n (match t with
        | KTMap => read_variant (c_env c) (c_res c) k as_map (fun m =>
            cres_of (write_list (c_env c) (c_res c) (map fst (map_iter (c_env c) m))))
        | _ => fail (c_res c) EKeyTypeInvalid end)).
      { intros n []; try done. unfold read_variant. apply Href. intros n' [v|]; try done. by destruct v. }
      destruct (r_key_type (c_req c)) as [t|]; [by apply (Hr t0 t)|]. cbn [wary]. intros n o _ _.
      by apply (Hr n (match o with Some v => kind v | None => KTMap end)).
    - unfold cmd_echo. repeat (match goal with |- wary _ _ _ _ (match ?x with _ => _ end) => destruct x end); done.
    - unfold cmd_stats. destruct (r_key_type (c_req c)); [done|]. generalize (∅ : gmap bytes bytes) as m.
      induction stats_counters as [|x l IH]; intros m; [done|]. cbn. intros [n|]; [|apply IH].
      destruct (_ <? _)%Z; apply IH.
  Qed.

  (** ** The changes so far *)

  Definition sofar (t : nat) : Prop := forall l j j' p p', C l j j' p p' -> j' <= t -> H l j p p'.

  Lemma noticed_once k n o o' : M k n o -> M k n o' -> o' = o.
  Proof. intros (_ & y & Hy & _ & _ & <-) (_ & y' & Hy' & _ & _ & <-). congruence. Qed.

  Lemma sofar_on t n n' k o o' : room_for_all scripts s0 -> call_at scripts b = Some c -> own k ->
    C k n n' o o' -> H k n o o' -> only sh scripts s0 sched b t k n n' -> sofar t -> sofar n'.
  Proof.
    intros Hroom Hc Hk Hch Hh Honly Hso l j j' p p' Hre Hj.
    destruct (Honly _ _ _ _ _ Hre) as [Hle|[Hlt|(-> & -> & _)]]; [by eapply Hso|lia|].
    destruct (decide (l = k)) as [->|Hne].
    { assert (p = o) as -> by (eapply noticed_once; [apply Hch|apply Hre]).
      assert (p' = o') as -> by (eapply noticed_once; [apply Hch|apply Hre]). done. }
    unfold own in Hk.
    destruct (c125_each _ _ _ _ _ _ _ _ _ _ _ Hroom Hc Hre) as [|Hm]; [by left|]. unfold may_change in Hm. unfold mild.
    destruct (r_command (c_req c)) eqn:E; try done; try (destruct Hm as [Hm _]; congruence).
    destruct Hm as (k0 & d & i & Hk0 & _ & _ & _ & [[-> _]|[_ (m & m' & v & _ & Hm & Hr & _)]]); [congruence|].
    exfalso. destruct (Honly _ _ _ _ _ Hr) as [Hle|[Hlt|(-> & -> & _)]]; [|destruct Hch; lia|destruct Hch; lia].
    pose proof (Hso _ _ _ _ _ Hr Hle) as Hx. unfold mild in Hx. rewrite E in Hx. destruct Hx; done.
  Qed.

  Lemma sofar_still t k n : sofar t -> only sh scripts s0 sched b t k n n -> sofar n.
  Proof.
    intros Hso Honly l j j' p p' Hre Hj. destruct (Honly _ _ _ _ _ Hre) as [Hle|[Hlt|(-> & -> & _)]]; [by eapply Hso|lia|].
    destruct Hre; lia.
  Qed.

  (** What is known of the call: it can report no error any more, or it did no harm and takes care. *)
  Definition blameless (t : nat) (p : prog) : Prop := no_err p \/ (sofar t /\ wary M own H t p).

  Lemma c130_error x k n n' o o' err out : room_for_all scripts s0 -> lsys_run sh sched (lbegin scripts s0) = Some x ->
    call_at scripts b = Some c -> lreturned x b (CErr err out) -> C k n n' o o' -> H k n o o'.
  Proof.
    intros Hroom Hx Hc (cl & Hcl & Hr) Hre.
    assert (Hf : followed sh scripts s0 sched b blameless (length sched) x).
    { eapply (followed_run sh scripts s0 sched b c blameless Hroom Hc); [..|done|by rewrite firstn_all].
      - intros t l q m p [Hq|[Hs Hw]] Hm HM Ho; [left; apply Hq|right]. split; [by eapply sofar_still|by apply Hw].
      - intros t l q m p [Hq|[Hs Hw]] Hm HM Ho; [left; apply Hq|right]. split; [by eapply sofar_still|by apply Hw].
      - intros t l v q m m' p [Hq|[Hs Hw]] Hm HM Ho; [by left|by left].
      - intros t l q m m' p [Hq|[Hs Hw]] Hm HM Ho; [left; apply Hq|]. destruct (Hw p) as [Hp|(H1 & H2 & H3)]; [by left|right].
        split; [eapply (sofar_on t m m' l); try done; by apply H2|]. apply H3. destruct HM; lia.
      - intros t l d u q m m' v [Hq|[Hs Hw]] Hm HM Ho; [left; apply Hq|]. destruct Hw as (_ & H1 & H2).
        destruct (H2 v) as [Hp|(H3 & H4)]; [by left|right]. split; [|apply H4; destruct HM; lia].
        rewrite H3 in HM. eapply (sofar_on t m m' l); try done. by left.
      - intros t l d u q m m' [Hq|[Hs Hw]] Hm HM Ho; [by left|right]. destruct Hw as (H1 & H2 & H3).
        split; [eapply (sofar_on t m m' l); try done; by left|]. pose proof HM as (Hlt & HM' & _). cbn. split_and!; [|done|].
        + intros i p Hi. apply (H1 m); [done|lia|done].
        + intros v. destruct (H3 v) as [Hv|[Hv1 Hv2]]; [by left|right]. split; [done|]. intros i Hi. apply Hv2. lia.
      - intros t l d u q m m' p [Hq|[Hs Hw]] Hm HM Ho; [by left|right]. destruct Hw as (H1 & H2 & H3).
        split; [eapply (sofar_on t m m' l); try done; by apply H1|]. destruct HM as (Hlt & _). cbn. split_and!; [|done|].
        + intros i j p' Hi Hj _. apply H1. lia.
        + intros v. destruct (H3 v) as [Hv|[Hv1 Hv2]]; [by left|right]. split; [done|]. intros i Hi. apply Hv2. lia.
      - intros t m q v [Hq|[Hs Hw]]; [left; apply Hq|right; split; [done|apply Hw]].
      - intros t d m q [Hq|[Hs Hw]]; [by left|by right].
      - intros t Hfr. right. split; [|apply wary_dispatch, wary_command].
        intros l j j' p p' Hcc Hle. specialize (Hfr _ _ _ _ _ Hcc). lia. }
    destruct (Hf cl Hcl) as (_ & _ & Hd). destruct (Hd _ Hr) as (t & _ & [Hne|[Hs _]] & Hq); [by destruct Hne|].
    apply (Hs _ _ _ _ _ Hre). pose proof Hre as (Hm & _ & (Hm' & _) & Hw). destruct (le_lt_dec n' t) as [|Hlt]; [done|]. exfalso.
    destruct (MemLin.lsys_run_take _ _ _ _ _ (n' - 1) Hx) as [z Hz]. apply (Hq (n' - 1) z k); [lia|lia|done|].
    apply (Hw (n' - 1)); [lia|lia|done].
  Qed.
End commands.

(** ** What follows *)

Lemma c130_nothing sh scripts s0 sched x b c k n n' o o' err out :
  room_for_all scripts s0 -> lsys_run sh sched (lbegin scripts s0) = Some x -> call_at scripts b = Some c ->
  lreturned x b (CErr err out) ->
  match r_command (c_req c) with
  | CSet | CAppend | CIncrement | CDecrement | CIncrementBy | CDecrementBy => False
  | _ => True
  end ->
  replaced sh scripts s0 sched b k n n' o o' -> o' = o.
Proof.
  intros Hroom Hx Hc Hr Hcmd Hre. destruct (c130_error _ _ _ _ _ _ _ _ _ _ _ _ _ _ Hroom Hx Hc Hr Hre) as [|Hm]; [done|].
  by destruct (r_command (c_req c)).
Qed.

Lemma c130_adds sh scripts s0 sched x b c k n n' o o' err out :
  room_for_all scripts s0 -> lsys_run sh sched (lbegin scripts s0) = Some x -> call_at scripts b = Some c ->
  lreturned x b (CErr err out) -> r_command (c_req c) <> CSet ->
  replaced sh scripts s0 sched b k n n' o o' ->
  (forall i, i <= n -> ~ noticed sh scripts s0 sched b k i None) -> o' = o.
Proof.
  intros Hroom Hx Hc Hr Hcmd Hre Hno. destruct (c130_error _ _ _ _ _ _ _ _ _ _ _ _ _ _ Hroom Hx Hc Hr Hre) as [|Hm]; [done|].
  destruct (r_command (c_req c)); try done; destruct Hm as [_ [[Hm _]|(t & m & H1 & H2 & _)]]; try done; by destruct (Hno m).
Qed.

(** ** Tasks *)

Lemma mild_tasks sh tasks s0 sched a b e c bl k m p p' :
  same_place tasks a b -> env_ok e -> (sends c <= 255)%N -> build e c = ROk bl ->
  mild sh (map dispatches tasks) s0 sched b (Call e (into_request bl) []) k m p p' ->
  task_mild sh tasks s0 sched a c k m p p'.
Proof.
  intros Hs He Hl Hb [Hch|Hch]; [by left|right].
  pose proof (build_asks e c bl He Hl Hb) as Ha. cbn [c_req c_env c_res] in Hch.
  assert (Hcommon : forall t, (forall t', begins_as (into_request bl) t' -> t' = t) -> opens_with c k t ->
    (r_command (into_request bl) = CSet -> exists w, sets_to c k w) ->
    ((r_command (into_request bl) = CSet /\ p' = None) \/
     (exists t i, i <= m /\ noticed sh (map dispatches tasks) s0 sched b k i None /\
        begins_as (into_request bl) t /\ p' = Some (blank t))) ->
    (exists w, sets_to c k w /\ p' = None) \/
    (exists t i, opens_with c k t /\ i <= m /\ task_noticed sh tasks s0 sched a k i None /\ p' = Some (blank t))).
  { intros t Ht Hst Hset [[H1 ->]|(t' & i & Hi & Hno & H1 & ->)].
    - destruct (Hset H1) as [w Hw]. left. by exists w.
    - right. exists t, i. split_and!; [done|done|by eapply noticed_tasks|]. by rewrite (Ht t' H1). }
  destruct c; cbn in Ha; destruct Ha as (Hcmd & Hkt & Hargs); rewrite Hcmd in Hch; try done;
    rewrite ?(carried_arg _ _ _ Hargs) in Hch; cbn in Hch.
  all: try (destruct Hch as [[= ->] Hch]; eapply Hcommon;
    [intros t' Ht'; unfold begins_as in Ht'; rewrite Hcmd in Ht'; rewrite ?Hkt in Ht';
       first [exact Ht'|destruct Ht' as [[=]|[= <-]]; reflexivity]
    |split; reflexivity|intros E; first [congruence|eexists; (by left) || (by right)]|rewrite Hcmd; exact Hch]).
Qed.

Lemma c130_tasks sh tasks s0 sched x a e c k n n' o o' err :
  sendable tasks -> tasks_fit tasks s0 -> at_work sh tasks s0 sched = Some x ->
  task_call tasks a = Some (e, c) -> got tasks x a (RErr (CERunningCommand err)) ->
  task_replaced sh tasks s0 sched a k n n' o o' ->
  task_mild sh tasks s0 sched a c k n o o'.
Proof.
  intros Hsend Hfit Hx Hc Hg Hre. assert (Hm : made_by_one tasks e c) by by exists a.
  destruct (Hsend _ _ Hm) as [He Hl].
  pose proof (got_cases _ _ _ _ _ _ Hsend Hc Hg) as H. destruct (refused c) as [err0|] eqn:Hrf.
  { exfalso. injection H as <-. clear -Hrf. unfold refused in Hrf. destruct c; repeat case_match; done. }
  destruct H as (b & bl & q & Hs & Hb & Hd & Hq & Hfin).
  assert (Hq' : exists out, q = CErr err out).
  { clear -Hfin. unfold finish in Hfin. destruct q as [resp|err' out|]; [|cbn in Hfin; exists out; congruence|done].
    exfalso. assert (Hrec : received e (COk resp) <> RErr (CERunningCommand err)).
    { unfold received. repeat case_match; discriminate. }
    destruct (received e (COk resp)) as [v| | |]; cbn in Hfin; [|congruence|done|done].
    revert Hfin. clear. unfold opened, of_kind, or_panic, a_number, a_key_type, rbind.
    destruct c; repeat case_match; intros; simplify_eq; done. }
  destruct Hq' as [out ->].
  eapply mild_tasks; [done|done|done|done|].
  eapply (c130_error sh (map dispatches tasks) s0 sched b _ x k n n' o o' err out (fit_room _ _ Hfit) Hx Hd Hq).
  by eapply tasks_replaced.
Qed.

(** A rename or a delete that reports an error has changed nothing. *)
Lemma c130_tasks_nothing sh tasks s0 sched x a e c k n n' o o' err :
  sendable tasks -> tasks_fit tasks s0 -> at_work sh tasks s0 sched = Some x ->
  task_call tasks a = Some (e, c) -> (exists l, c = KDelete l) \/ (exists l d, c = KRename l d) ->
  got tasks x a (RErr (CERunningCommand err)) ->
  task_replaced sh tasks s0 sched a k n n' o o' -> o' = o.
Proof.
  intros Hsend Hfit Hx Hc Hk Hg Hre. unfold sets_to in *.
  destruct (c130_tasks _ _ _ _ _ _ _ _ _ _ _ _ _ _ Hsend Hfit Hx Hc Hg Hre) as [|[(w & [->| ->] & _)|(t & m & Ho & _)]]; [done|..].
  - by destruct Hk as [[l ?]|(l & d & ?)].
  - by destruct Hk as [[l ?]|(l & d & ?)].
  - by destruct Hk as [[l ->]|(l & d & ->)].
Qed.

(** ** What a key holds when only calls that fail are made on it *)

Lemma results_there h : forall rs j e c err, h !! j = Some (e, c) -> build e c = RErr err ->
  length (dispatches (take j h)) <= length rs -> is_Some (results h rs !! j).
Proof.
  induction h as [|[e0 c0] h IH]; intros rs j e c err Hj Hb Hlen; [done|]. cbn [results]. destruct j as [|j].
  - cbn in Hj. injection Hj as -> ->. rewrite Hb. by eexists.
  - cbn in Hj, Hlen. destruct (build e0 c0); cbn in Hlen; [|by eapply IH..].
    destruct rs as [|r rs]; cbn in Hlen; [lia|]. cbn. eapply IH; [done|done|lia].
Qed.

Lemma running_sent sh tasks s0 sched z b e c : sendable tasks -> at_work sh tasks s0 sched = Some z ->
  task_call tasks b = Some (e, c) -> task_running tasks z b -> refused c = None.
Proof.
  intros Hsend Hz Hc [Hna Hng]. destruct (refused c) as [err|] eqn:Hr; [|done]. exfalso.
  assert (Hm : made_by_one tasks e c) by by exists b. destruct (Hsend _ _ Hm) as [He Hl].
  assert (Hb : build e c = RErr err) by (by apply makes_refused).
  unfold task_call in Hc. destruct (tasks !! b.1) as [h|] eqn:Hh; [|done]. cbn in Hc.
  destruct (in_script_run _ _ _ _ _ Hz) as [Hlen _].
  destruct (lookup_lt_is_Some_2 z.1 b.1) as [cl Hcl].
  { rewrite Hlen, map_length. by eapply lookup_lt_Some. }
  destruct (results_there h (lc_done cl) b.2 e c err Hc Hb) as [r Hr'].
  { destruct (le_lt_dec (lbegun cl) (length (dispatches (take b.2 h)))) as [Hle|Hlt].
    - destruct Hna. by exists h, cl.
    - unfold lbegun in Hlt. destruct (lc_now cl); lia. }
  apply (Hng r). by exists h, cl.
Qed.

Lemma c130_unharmed sh tasks s0 sched x k n n' v :
  sendable tasks -> tasks_fit tasks s0 -> at_work sh tasks s0 sched = Some x ->
  n' <= length sched -> only_failures sh tasks s0 sched x k n n' ->
  task_held sh tasks s0 sched k n (Some v) -> lasts sh tasks s0 sched k n n' (Some v).
Proof.
  intros Hsend Hfit Hx Hl' Hof Hn. pose proof Hn as (Hl & y & Hy & _).
  destruct (MemLin.lsys_run_take _ _ _ _ _ n' Hx) as [z' Hz'].
  intros i p Hi Hi' Hp. revert i Hi Hi' p Hp.
  intros i. induction (lt_wf i) as [i _ IH]. intros Hi Hi' p Hp.
  pose proof (c125_tasks _ _ _ _ _ n i (Some v) p Hsend Hfit Hi Hn Hp) as HL. clear Hp.
  assert (Hge : forall j q, task_ledger sh tasks s0 sched k n (Some v) j q -> n <= j).
  { intros j q H. induction H as [|j m m' b e c q q' H IHH _ Hre _ Hj]; [done|]. destruct Hre. lia. }
  destruct HL as [i Hni|i m m' b e c p p' HL Hc Hre Hch Hmi]; [done|].
  pose proof (Hge _ _ HL) as Hnm. pose proof Hre as (Hlt & (Hm1 & ym & Hym & Hrm & Hum & Hpm) & (Hm2 & ym' & Hym' & Hrm' & _) & _).
  assert (p = Some v) as ->.
  { apply (IH m); [lia|lia|lia|]. split; [done|]. by exists ym. }
  assert (Hnz : ~ ahead tasks z' b).
  { intros Ha. destruct Hrm' as [Hna _]. apply Hna. eapply (ahead_before sh tasks s0 sched m' n'); [exact Hym'|lia|exact Hz'|exact Ha]. }
  destruct (Hof y z' b e c Hy Hz' Hc (change_touches _ _ _ _ _ _ _ _ _ _ _ Hch) Hnz) as [[r Hg]|(Ha & Hns & err & Hg)].
  - exfalso. pose proof (got_cases _ _ _ _ _ _ Hsend Hc Hg) as H. rewrite (running_sent _ _ _ _ _ _ _ _ Hsend Hym' Hc Hrm') in H.
    destruct H as (b' & bl & q & Hs & _).
    by apply (returned_rests sh tasks s0 sched n m' y ym' b b' r Hs Hy Hg ltac:(lia) Hym').
  - destruct (c130_tasks _ _ _ _ _ _ _ _ _ _ _ _ _ _ Hsend Hfit Hx Hc Hg Hre) as [|[(w & Hw & _)|(t & j & _ & Hj & Hno & _)]]; [done|by destruct (Hns w)|].
    exfalso. destruct Hno as (Hj1 & yj & Hyj & Hrj & Huj & Hoj).
    assert (Hnj : n <= j).
    { destruct (le_lt_dec n j) as [|Hlt']; [done|]. destruct Hrj as [Hna _]. exfalso. apply Hna.
      eapply (ahead_before sh tasks s0 sched j n); [exact Hyj|lia|exact Hy|exact Ha]. }
    assert (None = Some v) by (apply (IH j); [lia|lia|lia|]; split; [done|]; by exists yj). done.
Qed.

Lemma c130_read sh tasks s0 sched x k n n' y z b e v r :
  sendable tasks -> tasks_fit tasks s0 -> at_work sh tasks s0 sched = Some x -> ordinary k -> sound v ->
  n <= n' -> n' <= length sched -> only_failures sh tasks s0 sched x k n n' ->
  task_held sh tasks s0 sched k n (Some v) ->
  at_work sh tasks s0 (take n sched) = Some y -> at_work sh tasks s0 (take n' sched) = Some z ->
  task_call tasks b = Some (e, KGet k) -> ahead tasks y b -> got tasks z b r ->
  r = ROk (RpValue v).
Proof.
  intros Hsend Hfit Hx Hord Hs Hle Hl Hof Hn Hy Hz. apply (c129_read sh tasks s0 sched k n n' y z b e r v); try done.
  by eapply c130_unharmed.
Qed.

Lemma c130_errors sh scripts s0 sched x b c k n n' o o' err out :
  room_for_all scripts s0 -> lsys_run sh sched (lbegin scripts s0) = Some x -> call_at scripts b = Some c ->
  lreturned x b (CErr err out) -> replaced sh scripts s0 sched b k n n' o o' ->
  mild sh scripts s0 sched b c k n o o'.
Proof. apply c130_error. Qed.
