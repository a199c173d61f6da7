(** Every value a key ever holds is accounted for by the calls that change it: proofs of C125. *)
From Verif Require Import Locks LockSpec LockFacts LockScripts LockScriptSpec LockScriptFacts.
From Verif Require Import Bytes BytesFacts Utf8 Float64 Value CommandId Request RequestSpec RequestFacts Response RespContext WireSpec
  EngineSpec Metrics Prog ProgFacts Commands CommandFacts HistorySpec EngineFacts EngineProps Concurrent ConcSpec ConcFacts Scripts LinSpec
  LinFacts KeyLinSpec KeyLin KeyLinFacts IsoSpec IsoFacts ScriptInv MomentSpec MomentFacts
  Client ClientSpec ClientFacts ClientProps MemTasks MemTaskSpec MemTaskFacts MemRaceSpec MemRaceFacts MemForwardSpec MemForward
  SeenSpec SeenFacts WroteSpec WroteFacts LedgerSpec.
From Verif Require MemLin MemFair.
From stdpp Require Import gmap list.
From Coq Require Import NArith ZArith Lia.
From Coq Require Import ZifyBool ZifyNat ZifyN.

(** ** What programs write *)

(** Each change the program makes from the time [t] on satisfies [W]. *)
Fixpoint does (M : bytes -> nat -> option value -> Prop) (C : bytes -> nat -> nat -> option value -> option value -> Prop)
  (W : nat -> bytes -> option value -> option value -> Prop) (t : nat) (p : prog) : Prop :=
  match p with
  | PRet _ => True
  | PContains k q => forall n o, t <= n -> M k n o -> does M C W n (q (match o with Some _ => true | None => false end))
  | PGet k q => forall n o, t <= n -> M k n o -> does M C W n (q o)
  | PInsert k v q => (forall n o, t <= n -> W n k o (Some v)) /\ forall n, t <= n -> does M C W n q
  | PRemove k q => (forall n o, t <= n -> W n k o None) /\
    forall n n' o, t <= n -> n <= n' -> C k n n' o None -> does M C W n' (q o)
  | PKoi k d u q =>
    (forall m n o, t <= m -> m <= n -> M k m None -> W n k o (Some d)) /\
    (forall n v, t <= n -> W n k (Some v) (Some (u v).1)) /\
    forall n r, t <= n -> does M C W n (q r)
  | PKoiIns k d u q =>
    (forall n o, t <= n -> W n k o (Some d)) /\
    (forall n v, t <= n -> W n k (Some v) (Some (u v).1)) /\
    forall n r, t <= n -> does M C W n (q r)
  | PCounter _ q => forall v, does M C W t (q v)
  | PIncr _ _ q => does M C W t q
  end.

Lemma does_later M C W p : forall t t', does M C W t p -> t <= t' -> does M C W t' p.
Proof.
  induction p as [r|k c IH|k c IH|k v c IH|k c IH|k d u c IH|k d u c IH|m c IH|d m c IH];
    intros t t' H Hle; cbn in *; try done; eauto.
  - intros n o H1 H2. apply H; [lia|done].
  - intros n o H1 H2. apply H; [lia|done].
  - destruct H as [H1 H2]. split; intros; [apply H1|apply H2]; lia.
  - destruct H as [H1 H2]. split; intros; [apply H1; lia|eapply (H2 n); [lia|done|done]].
  - destruct H as (H1 & H2 & H3). split_and!; intros; [apply (H1 m); [lia|done|done]|apply H2; lia|apply H3; lia].
  - destruct H as (H1 & H2 & H3). split_and!; intros; [apply H1|apply H2|apply H3]; lia.
Qed.

Lemma does_pbind M C W p f : (forall t r, does M C W t (f r)) -> forall t, does M C W t p -> does M C W t (pbind p f).
Proof.
  intros Hf. induction p as [r|k c IH|k c IH|k v c IH|k c IH|k d u c IH|k d u c IH|m c IH|d m c IH];
    intros t H; cbn in *; try done; eauto.
  - destruct H as [H1 H2]. split; [done|]. eauto.
  - destruct H as [H1 H2]. split; [done|]. eauto.
  - destruct H as (H1 & H2 & H3). split_and!; eauto.
  - destruct H as (H1 & H2 & H3). split_and!; eauto.
Qed.

Lemma does_dispatch M C W t e req res : does M C W t (command_prog e req res) -> does M C W t (dispatch_prog e req res).
Proof. intros H. unfold dispatch_prog. apply does_pbind; [|done]. by intros ? []. Qed.

(** ** What the commands write *)

(** What a Set of one type writes. *)
Definition set_writes (e : env) (k : bytes) (t : key_type) (p : prog) : Prop :=
  (exists r, p = PRet r) \/
  exists u, p = PRemove k (fun _ => key_or_insert_with e k (blank t) u) /\
    forall v, (u v).1 = v \/ (kind v = t /\ (u v).1 = (u (blank t)).1).

Lemma set_with_writes {A} e res k (as_ : value -> option A) new kept out t :
  (forall v, is_Some (as_ v) <-> kind v = t) -> set_writes e k t (set_with e res k (blank t) as_ new kept out).
Proof.
  intros Has. right. eexists. split; [reflexivity|]. cbv beta. unfold with_variant. intros v.
  assert (Hb : kind (blank t) = t) by (by destruct t). destruct (proj2 (Has (blank t)) Hb) as [a0 ->].
  destruct (as_ v) as [a|] eqn:Ea; [|by left].
  assert (kind v = t) by (apply Has; by eexists). destruct out; cbn; [by right|]. destruct kept; [by left|by right].
Qed.

Lemma set_typed_writes e req res k t : set_writes e k t (Commands.set_typed e req res k t).
Proof.
  unfold Commands.set_typed. destruct t; match goal with |- set_writes _ _ _ (match ?x with Some _ => _ | None => _ end) => destruct x end;
    try (left; by eexists); apply (set_with_writes e res k); intros v;
    destruct v; cbn; split; try done; try (by eexists); by intros [? ?].
Qed.

Section commands.
  Context (sh : shards) (scripts : list (list call)) (s0 : store) (sched : list (nat * list value)).
  Context (b : nat * nat) (c : call).
  Notation M := (noticed sh scripts s0 sched b).
  Notation C := (replaced sh scripts s0 sched b).
  Notation type_at := (goes_by sh scripts s0 sched b (c_req c)).

  Definition wrote (n : nat) (k : bytes) (o o' : option value) : Prop :=
    o' = o \/ may_change sh scripts s0 sched b c k n o o'.

  (** A change that the call would also make alone on the value. *)
  Lemma does_koi k t0 (d : value) (u : value -> value * cres) :
    (exists t, (forall m, t0 <= m -> type_at k m t) /\ d = blank t) -> arg (c_req c) 0 = Some k ->
    changes_one (r_command (c_req c)) -> r_command (c_req c) <> CDelete ->
    ((forall p, guarded (c_env c) k p = p) -> forall v, (u v).1 = v \/
       Some (u v).1 = st_keys (run (command_prog (c_env c) (c_req c) (c_res c)) (just k (Some v))).1 !! k) ->
    does M C wrote t0 (key_or_insert_with (c_env c) k d u).
  Proof.
    intros Hd Hk Hcmd Hnd Hu. unfold key_or_insert_with, guarded.
    assert (HW1 : forall m n o, t0 <= m -> m <= n -> M k m None -> wrote n k o (Some d)).
    { intros m n o H1 H2 H3. right. unfold may_change. destruct Hd as (t & Ht & ->). specialize (Ht m H1).
      destruct Hcmd as [E|[E|[E|[E|[E|[E|E]]]]]]; rewrite E in Hnd |- *; try done; (split; [done|right; left; by exists t, m]). }
    assert (HW2 : (forall p, guarded (c_env c) k p = p) -> forall n v, wrote n k (Some v) (Some (u v).1)).
    { intros Hgd n v. destruct (Hu Hgd v) as [->|E1]; [by left|right]. unfold may_change.
      destruct (dispatch_cmd (c_env c) (just k (Some v)) (c_req c) (c_res c) (just_room _ _)) as [_ E2].
      destruct Hcmd as [E|[E|[E|[E|[E|[E|E]]]]]]; rewrite E in Hnd |- *; try done;
        (split; [done|right; right; exists v; split; [done|]; by rewrite E2]). }
    unfold guarded in HW2. destruct (starts_with k reserved_prefix); [done|].
    destruct (debug (c_env c) && _); [done|]. cbn. split_and!; [exact HW1|by intros ? ? _; apply HW2|done].
  Qed.

  Lemma does_command t0 : does M C wrote t0 (command_prog (c_env c) (c_req c) (c_res c)).
  Proof.
    assert (Hkoi : forall k d u, (exists t, (forall m, t0 <= m -> type_at k m t) /\ d = blank t) -> arg (c_req c) 0 = Some k ->
      changes_one (r_command (c_req c)) -> r_command (c_req c) <> CDelete ->
      command_prog (c_env c) (c_req c) (c_res c) = key_or_insert_with (c_env c) k d u ->
      does M C wrote t0 (key_or_insert_with (c_env c) k d u)).
    { intros k d u Hd Hk Hcmd Hnd E. apply does_koi; [done|done|done|done|]. intros Hg v. right.
      rewrite E. unfold key_or_insert_with. rewrite Hg. cbn [run]. rewrite just_at. cbn [from_option id].
      destruct (u v) as [v' r]. unfold with_keys. cbn. by rewrite lookup_insert. }
    assert (Hkey : forall k, key (c_req c) = Some k -> arg (c_req c) 0 = Some k).
    { intros k. unfold key. destruct (r_command (c_req c)); cbn; try done. }
    assert (Hbi : forall cmd, r_command (c_req c) = cmd -> cmd = CIncrement \/ cmd = CDecrement \/ cmd = CIncrementBy \/ cmd = CDecrementBy ->
      forall k, exists t, (forall m, t0 <= m -> type_at k m t) /\ value_integer = blank t).
    { intros cmd E H k. exists KTInteger. split; [|done]. intros m _. unfold goes_by. rewrite E. by destruct H as [->|[->|[->| ->]]]. }
    assert (Href : forall t k q, (forall n o, does M C wrote n (q o)) -> does M C wrote t (key_ref (c_env c) k q)).
    { intros t k q Hq. unfold key_ref, guarded. destruct (starts_with k reserved_prefix); [done|]. destruct (debug (c_env c) && _); [done|]. cbn [does]. intros n o _ _. apply Hq. }
    unfold command_prog in *. destruct (r_command (c_req c)) eqn:E.
    all: try (specialize (Hbi _ eq_refl ltac:(tauto))).
    - unfold cmd_increment in *. destruct (key (c_req c)) as [k|] eqn:Ek; [|done].
      destruct (wants_float (c_req c)); (eapply Hkoi; [done|by apply Hkey|unfold changes_one; tauto|done|reflexivity]).
    - unfold cmd_decrement in *. destruct (key (c_req c)) as [k|] eqn:Ek; [|done].
      destruct (wants_float (c_req c)); (eapply Hkoi; [done|by apply Hkey|unfold changes_one; tauto|done|reflexivity]).
    - unfold cmd_increment_by in *. destruct (key (c_req c)) as [k|] eqn:Ek; [|done].
      destruct (typed_arg convert_i64 (c_req c) 1); [eapply Hkoi; [done|by apply Hkey|unfold changes_one; tauto|done|reflexivity]|].
      destruct (typed_arg convert_f64 (c_req c) 1); [eapply Hkoi; [done|by apply Hkey|unfold changes_one; tauto|done|reflexivity]|done].
    - unfold cmd_decrement_by in *. destruct (key (c_req c)) as [k|] eqn:Ek; [|done].
      destruct (typed_arg convert_i64 (c_req c) 1).
      { destruct (i64_checked _ _); [eapply Hkoi; [done|by apply Hkey|unfold changes_one; tauto|done|reflexivity]|done]. }
      destruct (typed_arg convert_f64 (c_req c) 1); [eapply Hkoi; [done|by apply Hkey|unfold changes_one; tauto|done|reflexivity]|done].
    - unfold cmd_set in *. destruct (key (c_req c)) as [k|] eqn:Ek; [|done]. destruct (arg (c_req c) 1) eqn:Ea; [|done].
      assert (Hrm : forall n o, wrote n k o None).
      { intros n o. right. unfold may_change. rewrite E. split; [by apply Hkey|]. by left. }
      unfold resolve_type in *. destruct (r_key_type (c_req c)) as [t|] eqn:Et.
      + destruct (set_typed_writes (c_env c) (c_req c) (c_res c) k t) as [[r Er]|(u & Er & Hu)]; [by rewrite Er|].
        rewrite Er. cbn [does]. split; [by intros|]. intros n n' o _ _ _. apply does_koi; [|by apply Hkey|rewrite E; unfold changes_one; tauto|by rewrite E|].
        { exists t. split; [|done]. intros m _. unfold goes_by. by rewrite E, Et. }
        intros Hg v. destruct (Hu v) as [H|[_ H]]; [by left|right]. rewrite H. unfold command_prog. rewrite E. unfold cmd_set. rewrite Ek, Ea.
        unfold resolve_type. rewrite Et, Er. unfold key_or_insert_with. rewrite Hg. cbn [run].
        unfold with_keys. cbn [st_keys st_counters]. rewrite lookup_delete. cbn [from_option id]. destruct (u (blank t)) as [v' r]. cbn. by rewrite lookup_insert.
      + cbn [does]. intros n1 o1 Hn1 HM1. set (t1 := match o1 with Some v => kind v | None => KTBytes end).
        destruct (set_typed_writes (c_env c) (c_req c) (c_res c) k t1) as [[r Er]|(u & Er & Hu)]; [by rewrite Er|].
        rewrite Er. cbn [does]. split; [by intros|]. intros n n' o Hn Hnn _. apply does_koi; [|by apply Hkey|rewrite E; unfold changes_one; tauto|by rewrite E|].
        { exists t1. split; [|done]. intros m Hm. unfold goes_by. rewrite E, Et. exists n1, o1. split_and!; [lia|done|done]. }
        intros Hg v. destruct (Hu v) as [H|[Hv H]]; [by left|right]. rewrite H. unfold command_prog. rewrite E. unfold cmd_set. rewrite Ek, Ea.
        unfold resolve_type. rewrite Et. cbn [run]. rewrite just_at, Hv, Er. unfold key_or_insert_with. rewrite Hg. cbn [run].
        unfold with_keys. cbn [st_keys st_counters]. rewrite lookup_delete. cbn [from_option id]. destruct (u (blank t1)) as [v' r]. cbn. by rewrite lookup_insert.
    - unfold cmd_get. destruct (key (c_req c)) as [k|]; [|done]. apply Href. intros n [v|]; [|done].
      destruct (r_key_type (c_req c)); [|done]. by case_decide.
    - unfold cmd_delete. destruct (r_key_type (c_req c)); [done|]. destruct (key (c_req c)) as [k|] eqn:Ek; [|done].
      cbn. split; [|by intros n n' [v|] _ _ _]. intros n o _. right. unfold may_change. rewrite E. split; [by apply Hkey|done].
    - unfold cmd_exists. destruct (r_key_type (c_req c)); [done|]. destruct (args_all (c_req c)) as [a|]; [|done].
      clear Hkoi Hbi Href. revert t0. induction (arguments_collect a) as [|k l IH]; intros t0; [done|]. cbn. by intros n [v|] _ _.
    - unfold cmd_is. destruct (r_key_type (c_req c)) as [kt|]; [|done]. destruct (args_all (c_req c)) as [a|]; [|done].
      clear Hkoi Hbi Href. revert t0. induction (arguments_collect a) as [|k l IH]; intros t0; [done|]. cbn. intros n o _ _. by destruct (match o with Some v => _ | None => _ end).
    - unfold cmd_rename. destruct (r_key_type (c_req c)); [done|]. destruct (arg (c_req c) 0) as [k|] eqn:Ek; [|done].
      destruct (arg (c_req c) 1) as [d|] eqn:Ed; [|done]. cbn. intros n1 [v1|] Hn1 _; [|done]. cbn. intros n2 [v2|] Hn2 HM2; [done|]. cbn. split.
      + intros n o Hn. right. unfold may_change. rewrite E. exists k, d, n2. split_and!; [done|done|done|done|by left].
      + intros n n' o Hn Hnn Ho. destruct o as [v|]; [|done]. cbn. split; [|done]. intros m o Hm. right. unfold may_change. rewrite E.
        exists k, d, n2. split_and!; [done|done|lia|done|]. right. split; [done|]. by exists n, n', v.
    - unfold cmd_type. destruct (key (c_req c)) as [k|]; [|done]. destruct (r_key_type (c_req c)); [done|]. cbn. by intros n [v|].
    - unfold cmd_append in *. destruct (arg (c_req c) 0) as [k|] eqn:Ek; [|done]. destruct (args_from (c_req c) 1) as [a|] eqn:Ea; [|done].
      set (cont := fun t : key_type => match t with KTBytes => append_bytes (c_env c) a (c_res c) k
        | KTList => append_list (c_env c) a (c_res c) k | KTString => append_string (c_env c) a (c_res c) k
        | _ => fail (c_res c) EKeyTypeDifferent end) in *.
      assert (Hcont : forall t, (exists r, cont t = PRet r) \/ exists u, cont t = key_or_insert_with (c_env c) k (blank t) u /\
        forall v, kind v <> t -> (u v).1 = v).
      { intros t. destruct t; try (left; by eexists); right; eexists; (split; [reflexivity|]); by intros []. }
      assert (Hend : forall t n, r_key_type (c_req c) = None \/ r_key_type (c_req c) = Some t ->
        (forall m, n <= m -> type_at k m t) -> does M C wrote n (cont t)).
      { intros t n Ht Hty. destruct (Hcont t) as [[r Er]|(u & Er & Hu)]; [by rewrite Er|]. rewrite Er. apply does_koi; [|done|rewrite E; unfold changes_one; tauto|by rewrite E|].
        { by exists t. }
        intros Hg v. destruct (decide (kind v = t)) as [Hv|Hv]; [right|left; by apply Hu].
        unfold command_prog. rewrite E. unfold cmd_append. rewrite Ek, Ea. unfold resolve_type.
        change (fun kt : key_type => match kt with KTBytes => append_bytes (c_env c) a (c_res c) k
          | KTList => append_list (c_env c) a (c_res c) k | KTString => append_string (c_env c) a (c_res c) k
          | _ => fail (c_res c) EKeyTypeDifferent end) with cont.
        assert (Hrun : st_keys (run (cont t) (just k (Some v))).1 !! k = Some (u v).1).
        { rewrite Er. unfold key_or_insert_with. rewrite Hg. cbn [run]. rewrite just_at. cbn [from_option id].
          destruct (u v) as [v' r]. unfold with_keys. cbn. by rewrite lookup_insert. }
        destruct Ht as [Ht|Ht]; rewrite Ht; [|by change (Some (u v).1 = st_keys (run (cont t) (just k (Some v))).1 !! k)].
        change (Some (u v).1 = st_keys (run (cont (match st_keys (just k (Some v)) !! k with Some v => kind v | None => KTBytes end)) (just k (Some v))).1 !! k).
        by rewrite just_at, Hv, Hrun. }
      unfold resolve_type. destruct (r_key_type (c_req c)) as [t|] eqn:Et; [apply Hend; [by right|]|].
      { intros m _. unfold goes_by. by rewrite E, Et. }
      cbn [does]. intros n o Hn HM. apply Hend; [by left|]. intros m Hm. unfold goes_by. rewrite E, Et. by exists n, o.
    - unfold cmd_length, resolve_type. destruct (key (c_req c)) as [k|]; [|done].
      assert (Hr : forall n t, does M C wrote n (match t with
        | KTBytes => read_variant (c_env c) (c_res c) k as_bytes (fun bs => COk (write_int (c_res c) (Z.of_N (lenN bs))))
        | KTList => read_variant (c_env c) (c_res c) k as_list (fun l => COk (write_int (c_res c) (Z.of_N (lenN l))))
        | KTMap => read_variant (c_env c) (c_res c) k as_map (fun m => COk (write_int (c_res c) (Z.of_N (N.of_nat (size m)))))
        | KTSet => read_variant (c_env c) (c_res c) k as_set (fun s => COk (write_int (c_res c) (Z.of_N (N.of_nat (size s)))))
        | KTString => read_variant (c_env c) (c_res c) k as_string (fun s => COk (write_int (c_res c) (Z.of_N (char_count s))))
        | _ => fail (c_res c) EKeyTypeInvalid end)).
      { intros n []; try done; unfold read_variant; apply Href; intros n' [v|]; try done; by destruct v. }
      destruct (r_key_type (c_req c)) as [t|]; [by apply (Hr t0 t)|]. cbn [does]. intros n o _ _.
      by apply (Hr n (match o with Some v => kind v | None => KTBytes end)).
    - unfold cmd_keys, resolve_type. destruct (key (c_req c)) as [k|]; [|done].
      assert (Hr : forall n t, does M C wrote n (match t with
        | KTMap => read_variant (c_env c) (c_res c) k as_map (fun m =>
            cres_of (write_list (c_env c) (c_res c) (map fst (map_iter (c_env c) m))))
        | _ => fail (c_res c) EKeyTypeInvalid end)).
      { intros n []; try done. unfold read_variant. apply Href. intros n' [v|]; try done. by destruct v. }
      destruct (r_key_type (c_req c)) as [t|]; [by apply (Hr t0 t)|]. cbn [does]. intros n o _ _.
      by apply (Hr n (match o with Some v => kind v | None => KTMap end)).
    - unfold cmd_echo. repeat (match goal with |- does _ _ _ _ (match ?x with _ => _ end) => destruct x end); done.
    - unfold cmd_stats. destruct (r_key_type (c_req c)); [done|]. generalize (∅ : gmap bytes bytes) as m.
      induction stats_counters as [|x l IH]; intros m; [done|]. cbn. intros [n|]; [|apply IH].
      destruct (_ <? _)%Z; apply IH.
  Qed.
End commands.

(** ** The calls being made *)

Lemma call_made sh scripts s0 sched x i cl t : lsys_run sh sched (lbegin scripts s0) = Some x ->
  x.1 !! i = Some cl -> lc_now cl = Some t -> exists c, call_at scripts (i, length (lc_done cl)) = Some c.
Proof.
  intros Hx Hcl Hnow. destruct (in_script_run _ _ _ _ _ Hx) as [Hlen H].
  destruct (lookup_lt_is_Some_2 scripts i) as [sc Hsc]; [rewrite <-Hlen; by eapply lookup_lt_Some|].
  destruct (H _ _ _ Hcl Hsc) as [_ Hle]. unfold lbegun in Hle. rewrite Hnow in Hle.
  unfold call_at. cbn. rewrite Hsc. cbn. apply lookup_lt_is_Some_2. lia.
Qed.

Section ledger.
  Context (sh : shards) (scripts : list (list call)) (s0 : store) (sched : list (nat * list value)) (k : bytes).
  Hypothesis Hroom : room_for_all scripts s0.
  Notation at_ n := (lsys_run sh (take n sched) (lbegin scripts s0)).

  Lemma does_known n x b c cl t : n <= length sched -> at_ n = Some x -> call_at scripts b = Some c ->
    x.1 !! b.1 = Some cl -> length (lc_done cl) = b.2 -> lc_now cl = Some t ->
    knows sh scripts s0 sched b (does (noticed sh scripts s0 sched b) (replaced sh scripts s0 sched b) (wrote sh scripts s0 sched b c)) n x.2 t.
  Proof.
    intros Hn Hx Hc Hcl Hd Ht.
    set (M := noticed sh scripts s0 sched b). set (C := replaced sh scripts s0 sched b). set (W := wrote sh scripts s0 sched b c).
    assert (Hfo : followed sh scripts s0 sched b (does M C W) n x).
    { eapply (followed_run sh scripts s0 sched b c (does M C W) Hroom Hc); [..|done|done].
      - intros t0 k0 q m o H1 H2 H3 _. by apply H1.
      - intros t0 k0 q m o H1 H2 H3 _. by apply H1.
      - intros t0 k0 v q m m' o [_ H1] H2 [H3 _] _. apply H1. lia.
      - intros t0 k0 q m m' o [_ H1] H2 H3 _. eapply H1; [exact H2| |exact H3]. destruct H3 as [H3 _]. lia.
      - intros t0 k0 d u q m m' v (_ & _ & H1) H2 [H3 _] _. apply H1. lia.
      - intros t0 k0 d u q m mm (H1 & H2 & H3) H4 (H5 & H5' & _) _. split_and!.
        + intros m' o H6. apply (H1 m); [done|lia|done].
        + intros m' v H6. apply H2. lia.
        + intros m' r H6. apply H3. lia.
      - intros t0 k0 d u q m m' o (H1 & H2 & H3) H4 [H5 _] _. split_and!.
        + intros i i' o' H6 H7 _. apply H1. lia.
        + intros i v H6. apply H2. lia.
        + intros i r H6. apply H3. lia.
      - intros t0 m q v H1. apply H1.
      - done.
      - intros t0 _. apply does_dispatch, does_command. }
    destruct (Hfo cl Hcl) as (_ & H & _). by apply H.
  Qed.

  Context (n1 : nat) (o1 : option value).
  Notation book := (ledger sh scripts s0 sched k n1 o1).
  Notation lock := (Some (KeyLock (key_shard sh k), true)).

  Lemma book_later n n' o : book n o -> n <= n' -> book n' o.
  Proof. intros [m Hm|m0 m m' b c o0 o' H1 H2 H3 H4 H5] Hle; [apply ledger_new; lia|]. eapply ledger_entry; try done. lia. Qed.

  (** Somebody has had the lock since the time [n0], when the key held [o]. *)
  Definition in_hand (n : nat) (x : lsystem) : Prop :=
    exists i cl t n0 y0 o, x.1 !! i = Some cl /\ lc_now cl = Some t /\ n0 < n /\ at_ n0 = Some y0 /\
      running y0 (i, length (lc_done cl)) /\ unlocked sh y0 k /\ st_keys y0.2 !! k = o /\ book n0 o /\
      (forall m z, n0 < m -> m <= n -> at_ m = Some z -> writing sh z (i, length (lc_done cl)) k) /\
      match t with
      | TIdle _ => False
      | TGuard p => st_keys x.2 !! k = o
      | TUpdate p v _ => (target p = Some k -> o = Some v) /\ (target p <> Some k -> st_keys x.2 !! k = o)
      | Locks.TDone p g => st_keys x.2 !! k = o \/ exists c, call_at scripts (i, length (lc_done cl)) = Some c /\
          wrote sh scripts s0 sched (i, length (lc_done cl)) c n0 k o (st_keys x.2 !! k)
      end.

  Definition kept (n : nat) (x : lsystem) : Prop :=
    (unlocked sh x k /\ book n (st_keys x.2 !! k)) \/ in_hand n x.

  Lemma takes_lock t s mid t' s' : lact sh t s mid = Some (t', s') -> holding sh t <> lock -> holding sh t' = lock ->
    exists p, t = TIdle p /\ t' = TGuard p /\ s' = s.
  Proof.
    intros Ha Hh Hh'. destruct t as [p|p|p v mi|p g]; cbn [lact] in Ha.
    - destruct (needs sh p); [|done]. injection Ha as <- <-. by exists p.
    - exfalso. apply Hh. rewrite <-Hh'. cbn [holding]. destruct (needs sh p) as [g|] eqn:En; [|done].
      destruct p; cbn in Ha; try done; try (by injection Ha as <- <-).
      + destruct (st_keys s !! k0); by injection Ha as <- <-.
      + destruct (counters_increment _ _ _); by injection Ha as <- <-.
    - exfalso. apply Hh. rewrite <-Hh'. destruct p; try done. destruct mi as [|w mi]; [destruct (upd v)|]; by injection Ha as <- <-.
    - injection Ha as <- <-. done.
  Qed.

  Lemma still_clear (lcs : list lclient) s s' i cl' : unlocked sh (lcs, s) k -> holding sh (lc_thread cl') <> lock ->
    unlocked sh (<[i := cl']> lcs, s') k.
  Proof.
    intros Hu Hh cl Hcl. apply elem_of_list_lookup_1 in Hcl as [j Hj]. cbn [fst] in Hj.
    apply list_lookup_insert_Some in Hj as [(-> & -> & _)|(_ & Hj)]; [done|].
    apply Hu. cbn. by eapply elem_of_list_lookup_2.
  Qed.

  Lemma kept_step n x x1 i mid : S n <= length sched -> at_ n = Some x -> at_ (S n) = Some x1 ->
    lsys_step sh i mid x = Some x1 -> kept n x -> kept (S n) x1.
  Proof.
    intros Hn Hx Hx1 Hs Hk.
    destruct (lsys_run_sim _ _ _ _ _ Hx) as (ps & f & _ & _ & _ & Hsim).
    destruct (Hsim (length (take n sched)) x) as (y & Hy & Hinv); [done|by rewrite firstn_all|]. clear Hsim.
    destruct x as [lcs s]. unfold lsys_step in Hs. cbn [fst snd] in Hs.
    destruct (lcs !! i) as [cl|] eqn:Hcl; [|done].
    pose proof (lookup_lt_Some _ _ _ Hcl) as Hlt.
    (* another client's lock is not touched *)
    assert (Hother : forall cl' s', x1 = (<[i := cl']> lcs, s') -> st_keys s' !! k = st_keys s !! k ->
      (forall t, lc_now cl = Some t -> holding sh t <> lock) -> in_hand n (lcs, s) -> in_hand (S n) x1).
    { intros cl' s' E Es Hno (j & clj & t & n0 & y0 & o & Hj & Ht & Hn0 & Hy0 & Hr & Hu & Ho & Hb & Hw & Hm).
      cbn [fst snd] in *. destruct (Hw n (lcs, s)) as (cl2 & Hcl2 & _ & Hh2); [lia|lia|done|]. cbn [fst] in Hcl2.
      assert (cl2 = clj) as -> by congruence. unfold lc_thread in Hh2. rewrite Ht in Hh2.
      assert (Hij : i <> j). { intros ->. assert (clj = cl) as -> by congruence. by apply (Hno t). }
      assert (Hj1 : x1.1 !! j = Some clj) by (rewrite E; cbn; by rewrite list_lookup_insert_ne).
      exists j, clj, t, n0, y0, o. split_and!; try done; [lia| |].
      - intros m z H1 H2 Hz. destruct (decide (m = S n)) as [->|Hne]; [|apply (Hw m); [lia|lia|done]].
        assert (z = x1) as -> by congruence. exists clj. split_and!; [done|done|]. unfold lc_thread. by rewrite Ht.
      - rewrite E. cbn [snd]. by rewrite Es. }
    (* a step that leaves the key alone and takes no lock *)
    assert (Hquiet : forall cl', x1 = (<[i := cl']> lcs, s) -> holding sh (lc_thread cl') <> lock ->
      (forall t, lc_now cl = Some t -> holding sh t <> lock) -> kept (S n) x1).
    { intros cl' E Hh' Hno. destruct Hk as [[Hu Hb]|Hk]; [left|right; by eapply Hother].
      rewrite E. split; [by apply still_clear with (s := s)|]. cbn [snd] in *. apply (book_later n); [done|lia]. }
    destruct (lc_now cl) as [t|] eqn:Hnow.
    2: { destruct (lc_todo cl) as [|d rest] eqn:Htodo; [done|]. injection Hs as Hs. symmetry in Hs. by eapply Hquiet. }
    assert (Hret : (exists r, t = TIdle (PRet r)) \/ forall r, t <> TIdle (PRet r)).
    { destruct t as [[]| | |]; try (right; done). left. by eexists. }
    destruct Hret as [[r ->]|Hnr].
    { injection Hs as Hs. symmetry in Hs. eapply Hquiet; [done|done|]. by intros ? [= <-]. }
    assert (Hs' : match lact sh t s mid with
           | Some (t', s) => Some (<[i := LClient (lc_done cl) (Some t') (lc_todo cl)]> lcs, s)
           | None => None end = Some x1).
    { destruct t as [[r| | | | | | | |]| | |]; try (by destruct (Hnr r));
        match type of Hs with (if ?c then _ else _) = _ => destruct c; [exact Hs|done] | _ => exact Hs end. }
    clear Hs. destruct (lact sh t s mid) as [[t' s']|] eqn:Ha; [|done].
    injection Hs' as Hs'. symmetry in Hs'.
    assert (Hthr : lc_thread cl = t) by (unfold lc_thread; by rewrite Hnow).
    assert (Hcl1 : x1.1 !! i = Some (LClient (lc_done cl) (Some t') (lc_todo cl))).
    { rewrite Hs'. cbn [fst]. by rewrite list_lookup_insert. }
    destruct (decide (holding sh t = lock)) as [Hh|Hh].
    2: { (* it does not have the lock *)
      pose proof (lact_elsewhere _ _ _ _ _ _ _ Ha Hh) as Es.
      destruct Hk as [[Hu Hb]|Hk].
      2: { right. eapply Hother; [done|done|by intros ? [= <-]|done]. }
      destruct (decide (holding sh t' = lock)) as [Hh'|Hh'].
      - right. destruct (takes_lock _ _ _ _ _ Ha Hh Hh') as (p & -> & -> & ->).
        exists i, (LClient (lc_done cl) (Some (TGuard p)) (lc_todo cl)), (TGuard p), n, (lcs, s), (st_keys s !! k).
        split_and!; [done|done|lia|done| |done|done|done| |by rewrite Hs'].
        + exists cl. cbn. by rewrite Hnow.
        + intros m z H1 H2 Hz. assert (m = S n) as -> by lia. assert (z = x1) as -> by congruence.
          eexists. split; [exact Hcl1|]. done.
      - left. rewrite Hs'. split; [by apply still_clear with (s := s)|]. cbn [snd] in *. rewrite Es. apply (book_later n); [done|lia]. }
    (* it has the lock *)
    destruct Hk as [[Hu _]|(j & clj & tj & n0 & y0 & o & Hj & Ht & Hn0 & Hy0 & Hr & Hu & Ho & Hb & Hw & Hm)].
    { exfalso. eapply (Hu cl); [cbn; by eapply elem_of_list_lookup_2|by rewrite Hthr]. }
    cbn [fst snd] in *. destruct (Hw n (lcs, s)) as (cl2 & Hcl2 & _ & Hh2); [lia|lia|done|]. cbn [fst] in Hcl2.
    assert (cl2 = clj) as -> by congruence.
    destruct (decide (i = j)) as [<-|Hij].
    2: { exfalso. eapply (excl_write sh (lcs, s) y i j cl clj k Hinv); [done|done|done|by rewrite Hthr|done]. }
    assert (clj = cl) as -> by congruence. assert (tj = t) as -> by congruence. clear Hcl2 Hh2.
    destruct (call_made _ _ _ _ _ _ _ _ Hx Hj Hnow) as [c Hc].
    pose proof (does_known n (lcs, s) (i, length (lc_done cl)) c cl t ltac:(lia) Hx Hc Hj eq_refl Hnow) as Hkn. cbn [snd] in Hkn.
    destruct Hkn as (t0 & Ht0 & Hkn).
    (* the times agree *)
    assert (Htimes : forall k' o', key_shard sh k' = key_shard sh k -> since sh scripts s0 sched (i, length (lc_done cl)) t0 n s k' o' -> t0 <= n0).
    { intros k' o' Ek (m0 & z0 & H1 & H2 & H3 & _ & H4 & _ & _ & H5).
      destruct (le_lt_dec m0 n0) as [|Hlt0]; [lia|]. exfalso.
      destruct (Hw m0 z0) as (cl3 & Hcl3 & _ & Hh3); [lia|lia|done|]. eapply (H4 cl3); [by eapply elem_of_list_lookup_2|by rewrite Ek]. }
    assert (Hkeep : match t' with
      | TIdle _ => False
      | TGuard p => st_keys s' !! k = o
      | TUpdate p v _ => (target p = Some k -> o = Some v) /\ (target p <> Some k -> st_keys s' !! k = o)
      | Locks.TDone p g => st_keys s' !! k = o \/ exists c, call_at scripts (i, length (lc_done cl)) = Some c /\
          wrote sh scripts s0 sched (i, length (lc_done cl)) c n0 k o (st_keys s' !! k)
      end -> holding sh t' = lock -> kept (S n) x1).
    { intros Hm' Hh'. right. exists i, (LClient (lc_done cl) (Some t') (lc_todo cl)), t', n0, y0, o.
      split_and!; [done|done|lia|done|done|done|done|done| |by rewrite Hs'].
      intros m z H1 H2 Hz. destruct (decide (m = S n)) as [->|Hne]; [|apply (Hw m); [lia|lia|done]].
      assert (z = x1) as -> by congruence. eexists. split; [exact Hcl1|]. done. }
    assert (Hlock : forall k' : bytes, Some (KeyLock (key_shard sh k'), true) = lock -> key_shard sh k' = key_shard sh k) by congruence.
    destruct t as [p|p|p v mi|p g].
    - done.
    - cbn in Hh. destruct Hkn as (Hdo & Hsi & _). cbn [lact] in Ha. rewrite Hh in Ha.
      destruct p as [r|k' q|k' q|k' v q|k' q|k' d u q|k' d u q|m q|d m q]; cbn in Hh; try done;
        pose proof (Hlock _ Hh) as Ek; pose proof (Htimes k' _ Ek (Hsi k' eq_refl)) as Hle.
      + injection Ha as <- <-. apply Hkeep; [|by cbn; rewrite ?Hh]. destruct Hdo as [Hdo _]. unfold with_keys. cbn [st_keys].
        destruct (decide (k' = k)) as [->|Hne]; [|left; by rewrite lookup_insert_ne].
        right. exists c. split; [done|]. rewrite lookup_insert. by apply Hdo.
      + injection Ha as <- <-. apply Hkeep; [|by cbn; rewrite ?Hh]. destruct Hdo as [Hdo _]. unfold with_keys. cbn [st_keys].
        destruct (decide (k' = k)) as [->|Hne]; [|left; by rewrite lookup_delete_ne].
        right. exists c. split; [done|]. rewrite lookup_delete. by apply Hdo.
      + cbn in Ha. destruct (st_keys s !! k') as [v|] eqn:Ev; injection Ha as <- <-; (apply Hkeep; [|by cbn; rewrite ?Hh]).
        * split; [|done]. cbn. intros [= ->]. congruence.
        * by left.
      + injection Ha as <- <-. apply Hkeep; [|by cbn; rewrite ?Hh]. destruct Hdo as [Hdo _]. unfold with_keys. cbn [st_keys].
        destruct (decide (k' = k)) as [->|Hne]; [|left; by rewrite lookup_insert_ne].
        right. exists c. split; [done|]. rewrite lookup_insert. by apply Hdo.
    - destruct Hkn as [Hdo (k' & d & u & q & -> & Hsi)]. cbn in Hh. pose proof (Hlock _ Hh) as Ek.
      pose proof (Htimes k' _ Ek Hsi) as Hle. cbn [lact] in Ha. destruct Hm as [Hm1 Hm2]. cbn [target] in Hm1, Hm2.
      destruct mi as [|w mi].
      + destruct (u v) as [v' r] eqn:Eu. injection Ha as <- <-. apply Hkeep; [|by cbn; rewrite ?Hh].
        destruct Hdo as (_ & Hdo & _). unfold with_keys. cbn [st_keys].
        destruct (decide (k' = k)) as [->|Hne]; [|left; rewrite lookup_insert_ne by done; apply Hm2; congruence].
        right. exists c. split; [done|]. rewrite lookup_insert, (Hm1 eq_refl). specialize (Hdo n0 v Hle). by rewrite Eu in Hdo.
      + injection Ha as <- <-. apply Hkeep; [|by cbn; rewrite ?Hh]. cbn [target]. split; [done|]. intros Hne.
        unfold with_keys. cbn [st_keys]. rewrite lookup_insert_ne by congruence. by apply Hm2.
    - cbn in Ha. injection Ha as <- <-. left. cbn in Hh. injection Hh as ->.
      assert (Hu1 : unlocked sh x1 k).
      { intros cl' Hcl' Hh'. apply elem_of_list_lookup_1 in Hcl' as [j Hj'].
        destruct (decide (j = i)) as [->|Hne].
        { rewrite Hcl1 in Hj'. by injection Hj' as <-. }
        rewrite Hs' in Hj'. cbn [fst] in Hj'. rewrite list_lookup_insert_ne in Hj' by done.
        eapply (excl_write sh (lcs, s) y i j cl cl' k Hinv); [congruence|done|done|by rewrite Hthr|done]. }
      split; [done|]. assert (Es : st_keys x1.2 = st_keys s) by (by rewrite Hs'). rewrite Es.
      destruct Hm as [->|(c0 & Hc0 & [E|Hch])]; [apply (book_later n0); [done|lia]|rewrite E; apply (book_later n0); [done|lia]|].
      eapply (ledger_entry _ _ _ _ _ _ _ (S n) n0 (S n)); [exact Hb|exact Hc0| |exact Hch|lia].
      split_and!; [lia| | |].
      + split; [lia|]. by exists y0.
      + split; [done|]. exists x1. split_and!; [done| |done|by rewrite Es].
        exists (LClient (lc_done cl) (Some (TIdle p)) (lc_todo cl)). done.
      + intros m z H1 H2. apply Hw; [done|lia].
  Qed.

  Lemma kept_run n x y1 : n1 <= n -> n <= length sched -> at_ n1 = Some y1 -> unlocked sh y1 k -> st_keys y1.2 !! k = o1 ->
    at_ n = Some x -> kept n x.
  Proof.
    revert x. induction n as [|n IH]; intros x Hle Hn Hy1 Hu1 Ho1 Hx.
    - assert (n1 = 0) as -> by lia. assert (x = y1) as -> by congruence. left. split; [done|]. rewrite Ho1. apply ledger_new; lia.
    - destruct (decide (n1 = S n)) as [E|Hne].
      + rewrite E in Hy1. assert (x = y1) as -> by congruence. left. split; [done|]. rewrite Ho1. apply ledger_new. lia.
      + destruct (lookup_lt_is_Some_2 sched n) as [[i mid] Him]; [lia|]. pose proof Hx as Hx1.
        rewrite (take_S_r _ _ _ Him), lsys_run_app in Hx.
        destruct (at_ n) as [z|] eqn:Hz; [|done]. cbn in Hx.
        destruct (lsys_step sh i mid z) as [z1|] eqn:Hs; [|done]. injection Hx as ->.
        eapply (kept_step n z); [done|done|done|done|]. apply IH; [lia|lia|done|done|done|done].
  Qed.
End ledger.

Lemma c125_ledger sh scripts s0 sched k n n' o o' :
  room_for_all scripts s0 -> n <= n' ->
  held sh scripts s0 sched k n o -> held sh scripts s0 sched k n' o' ->
  ledger sh scripts s0 sched k n o n' o'.
Proof.
  intros Hroom Hle (Hn & y & Hy & Hu & Ho) (Hn' & z & Hz & Hu' & <-).
  destruct (kept_run sh scripts s0 sched k Hroom n o n' z y Hle Hn' Hy Hu Ho Hz) as [[_ H]|H]; [done|].
  exfalso. destruct H as (i & cl & t & n0 & y0 & o2 & _ & _ & Hn0 & _ & _ & _ & _ & _ & Hw & _).
  destruct (Hw n' z) as (cl' & Hcl' & _ & Hh); [lia|lia|done|]. eapply (Hu' cl'); [by eapply elem_of_list_lookup_2|done].
Qed.

Lemma held_start sh scripts s0 sched k : held sh scripts s0 sched k 0 (st_keys s0 !! k).
Proof.
  split; [lia|]. exists (lbegin scripts s0). split_and!; [done| |done].
  intros cl Hcl. unfold lbegin in Hcl. cbn in Hcl. apply elem_of_list_In, in_map_iff in Hcl as (l & <- & _). done.
Qed.

Lemma goes_begins sh scripts s0 sched b req k m t : goes_by sh scripts s0 sched b req k m t -> begins_as req t.
Proof.
  unfold goes_by, begins_as. destruct (r_command req); try done; (destruct (r_key_type req); [intros ->; by right|by left]).
Qed.

(** What all values have that the calls keep. *)
Lemma c125_all (P : value -> Prop) sh scripts s0 sched :
  room_for_all scripts s0 ->
  (forall k v, st_keys s0 !! k = Some v -> P v) ->
  (forall b c k t, call_at scripts b = Some c -> changes_one (r_command (c_req c)) -> r_command (c_req c) <> CDelete ->
     arg (c_req c) 0 = Some k -> begins_as (c_req c) t -> P (blank t)) ->
  (forall b c k v v', call_at scripts b = Some c -> changes_one (r_command (c_req c)) -> arg (c_req c) 0 = Some k ->
     P v -> st_keys (dispatch (c_env c) (just k (Some v)) (c_req c) (c_res c)).1 !! k = Some v' -> P v') ->
  forall k n v, held sh scripts s0 sched k n (Some v) -> P v.
Proof.
  intros Hroom H0 Hblank Hkeep k n. revert k. induction (lt_wf n) as [n _ IH]. intros k v Hv.
  pose proof (c125_ledger _ _ _ _ _ _ _ _ _ Hroom (Nat.le_0_l n) (held_start _ _ _ _ _) Hv) as HL. clear Hv.
  assert (Hgen : forall n' o, ledger sh scripts s0 sched k 0 (st_keys s0 !! k) n' o -> n' <= n ->
    match o with Some v => P v | None => True end); [|by apply (Hgen n (Some v))].
  clear HL v. intros n' o HL. induction HL as [n' Hle|n' m m' b c o o' HL IHL Hc Hre Hch Hle]; intros Hn.
  { destruct (st_keys s0 !! k) eqn:E; [by eapply H0|done]. }
  assert (Hm : S m < m') by (by destruct Hre). specialize (IHL ltac:(lia)).
  destruct o' as [v'|]; [|done]. unfold may_change in Hch. cbn zeta in Hch.
  assert (Hcmd : changes_one (r_command (c_req c)) -> r_command (c_req c) <> CDelete ->
    arg (c_req c) 0 = Some k /\
    ((r_command (c_req c) = CSet /\ Some v' = None) \/
     (exists t i, i <= m /\ noticed sh scripts s0 sched b k i None /\
        goes_by sh scripts s0 sched b (c_req c) k i t /\ Some v' = Some (blank t)) \/
     (exists v, o = Some v /\
        Some v' = st_keys (dispatch (c_env c) (just k (Some v)) (c_req c) (c_res c)).1 !! k)) -> P v').
  { intros H1 H2 [Ha [[_ [=]]|[(t & i & _ & _ & Ht & [= ->])|(w & -> & E)]]]; [eapply Hblank; [done..|by eapply goes_begins]|]. by eapply (Hkeep b c k w). }
  unfold changes_one in Hcmd.
  destruct (r_command (c_req c)) eqn:Er; try done; try (by apply Hcmd; [tauto|done|]).
  - by destruct Hch.
  - destruct Hch as (k0 & d & j & _ & _ & _ & _ & [[_ [=]]|(_ & i & i' & w & _ & Hi & (Hii & (Hil & y & Hy & _ & Hu & Ho) & _) & [= ->])]).
    apply (IH i ltac:(lia) k0). split; [done|]. by exists y.
Qed.

(** A key that no call may change. *)
Lemma c125_untouched sh scripts s0 sched k n o :
  room_for_all scripts s0 ->
  (forall b c, call_at scripts b = Some c ->
     (changes_one (r_command (c_req c)) \/ r_command (c_req c) = CRename -> arg (c_req c) 0 <> Some k) /\
     (r_command (c_req c) = CRename -> arg (c_req c) 1 <> Some k)) ->
  held sh scripts s0 sched k n o -> o = st_keys s0 !! k.
Proof.
  intros Hroom Hno Ho.
  pose proof (c125_ledger _ _ _ _ _ _ _ _ _ Hroom (Nat.le_0_l n) (held_start _ _ _ _ _) Ho) as HL. clear Ho.
  induction HL as [n Hle|n m m' b c o o' HL IHL Hc Hre Hch Hle]; [done|]. exfalso.
  destruct (Hno b c Hc) as [H1 H2]. unfold may_change in Hch. cbn zeta in Hch. unfold changes_one in H1.
  destruct (r_command (c_req c)); try done; try (destruct Hch as [Hch _]; apply H1; [tauto|done]).
  destruct Hch as (k0 & d & i & Hk0 & Hd & _ & _ & [[-> _]|[-> _]]); [apply H1; [tauto|done]|by apply H2].
Qed.

Lemma may_change_tasks sh tasks s0 sched a b e c bl k m p p' :
  same_place tasks a b -> env_ok e -> (sends c <= 255)%N -> build e c = ROk bl ->
  may_change sh (map dispatches tasks) s0 sched b (Call e (into_request bl) []) k m p p' ->
  task_may_change sh tasks s0 sched a e c k m p p'.
Proof.
  intros Hs He Hl Hb Hch.
  pose proof (build_asks e c bl He Hl Hb) as Ha. unfold may_change in Hch. cbn [c_req c_env c_res] in Hch.
  assert (Hcommon : forall t, (forall t', begins_as (into_request bl) t' -> t' = t) -> opens_with c k t ->
    (r_command (into_request bl) = CSet -> exists w, sets_to c k w) ->
    ((r_command (into_request bl) = CSet /\ p' = None) \/
     (exists t i, i <= m /\ noticed sh (map dispatches tasks) s0 sched b k i None /\
        goes_by sh (map dispatches tasks) s0 sched b (into_request bl) k i t /\ p' = Some (blank t)) \/
     (exists v, p = Some v /\
        p' = st_keys (dispatch e (just k (Some v)) (into_request bl) []).1 !! k)) ->
    task_may_change sh tasks s0 sched a e c k m p p').
  { intros t Ht Hst Hset [[H1 ->]|[(t' & i & Hi & Hno & H1 & ->)|(v & -> & ->)]].
    - destruct (Hset H1) as [w Hw]. do 3 right. left. by exists w.
    - do 4 right. left. exists t, i. split_and!; [done|done|by eapply noticed_tasks|]. by rewrite (Ht t' (goes_begins _ _ _ _ _ _ _ _ _ H1)).
    - do 5 right. exists t, v. split_and!; [done|done|]. by rewrite (mem_left _ _ _ _ Hb). }
  destruct c; cbn in Ha; destruct Ha as (Hcmd & Hkt & Hargs); rewrite Hcmd in Hch; try done;
    rewrite ?(carried_arg _ _ _ Hargs) in Hch; cbn in Hch.
  all: try (destruct Hch as [[= ->] Hch]; eapply Hcommon;
    [intros t' Ht'; unfold begins_as in Ht'; rewrite Hcmd in Ht'; rewrite ?Hkt in Ht';
       first [exact Ht'|destruct Ht' as [[=]|[= <-]]; reflexivity]
    |split; reflexivity|intros E; first [congruence|eexists; (by left) || (by right)]|rewrite Hcmd; exact Hch]).
  - destruct Hch as [[= ->] ->]. by left.
  - destruct Hch as (k0 & d & j & [= <-] & [= <-] & Hj & Hno & [[-> ->]|[-> (i & i' & v & Hji & Hi & Hr & ->)]]).
    + right. left. eexists _, j. split_and!; [done|done|by eapply noticed_tasks|done].
    + do 2 right. left. eexists _, j, i, i', v. split_and!; [done|done|done|by eapply noticed_tasks|by eapply replaced_tasks|done].
Qed.

Lemma c125_tasks sh tasks s0 sched k n n' o o' :
  sendable tasks -> tasks_fit tasks s0 -> n <= n' ->
  task_held sh tasks s0 sched k n o -> task_held sh tasks s0 sched k n' o' ->
  task_ledger sh tasks s0 sched k n o n' o'.
Proof.
  intros Hsend Hfit Hle Ho Ho'.
  pose proof (c125_ledger sh (map dispatches tasks) s0 sched k n n' o o' (fit_room _ _ Hfit) Hle Ho Ho') as HL. clear Ho Ho' Hle.
  induction HL as [n' Hle|n' m m' b d p p' HL IHL Hd Hre Hch Hle]; [by apply task_ledger_new|].
  destruct (MemLin.back_spec _ _ _ Hd) as (e & c & bl & Hs & Hc & Hb & ->).
  eapply (task_ledger_entry _ _ _ _ _ _ _ n' m m'); [exact IHL|exact Hc|by eapply replaced_tasks| |done].
  assert (Hm : made_by_one tasks e c) by by eexists. destruct (Hsend _ _ Hm) as [He Hl].
  by eapply may_change_tasks.
Qed.

Lemma set_alone e c k w s : env_ok e -> (sends c <= 255)%N -> sets_to c k w -> refused c = None -> ordinary k -> sound w -> room s ->
  st_keys (mem_call e s c).1 !! k = Some w.
Proof.
  intros He Hl Hc Hr Ho Hsv Hs. destruct (makes_built e c He Hl Hr) as (bl & Hb & _).
  rewrite (mem_left _ _ _ _ Hb). pose proof (build_asks e c bl He Hl Hb) as Ha.
  assert (Ha' : asks (into_request bl) CSet (Some (kind w)) (k :: value_args e w)) by (by destruct Hc as [->| ->]).
  pose proof Hsv as (Hwf & Hlim & _ & Hnl & _).
  assert (Hve : value_empty w = false).
  { destruct Ho as [Hne _]. destruct (value_empty w) eqn:E; [|done]. apply nonempty in Hne.
    destruct Hc as [->| ->]; cbn in Hr; rewrite Hne, E in Hr; done. }
  assert (Hne : value_args e w <> []) by (by apply value_args_nonempty).
  edestruct (dispatch_val_fits e s (into_request bl) [] _ _ _ (<[k := w]> (st_keys s)) w He Ha' Hs Hlim) as [_ H].
  - destruct (value_args e w) as [|a r] eqn:Hva; [done|]. cbn [spec_command]. unfold spec_set.
    cbn [type_or]. rewrite <-Hva, spells_value_of, ordinary_ok; try done.
    all: first [by apply value_args_spells|by rewrite Hva].
  - by rewrite H, lookup_insert.
Qed.

Lemma sets_changes c k w : sets_to c k w -> changes c k.
Proof. intros [->| ->]; cbn; by apply elem_of_list_singleton. Qed.
Lemma sets_one c k w w' : sets_to c k w -> sets_to c k w' -> w' = w.
Proof. intros [->| ->] [H|H]; congruence. Qed.

(** A key that is only set. *)
Lemma c125_sets sh tasks s0 sched k n o :
  sendable tasks -> tasks_fit tasks s0 -> ordinary k ->
  (forall e c, made_by_one tasks e c -> (exists w, sets_to c k w /\ sound w) \/ ~ changes c k) ->
  task_held sh tasks s0 sched k n o ->
  o = None \/ o = st_keys s0 !! k \/
  exists e c w, made_by_one tasks e c /\ sets_to c k w /\ (o = Some w \/ o = Some (blank (kind w))).
Proof.
  intros Hsend Hfit Hord Honly Ho.
  pose proof (c125_tasks _ _ _ _ _ _ _ _ _ Hsend Hfit (Nat.le_0_l n) (held_start _ _ _ _ _) Ho) as HL. clear Ho.
  induction HL as [n Hle|n m m' a e c o o' HL IHL Hc Hre Hch Hle]; [by right; left|].
  assert (Hm : made_by_one tasks e c) by by exists a.
  destruct Hch as [[_ ->]|[(d & j & _ & _ & _ & ->)|[(k0 & j & i & i' & v & -> & _)|[(w & _ & ->)|[(t & j & Ht & _ & _ & ->)|(t & v & Ht & -> & ->)]]]]];
    try (by left).
  - exfalso. destruct (Honly _ _ Hm) as [(w & [E|E] & _)|Hn]; [done|done|]. apply Hn. cbn. right. by left.
  - destruct (Honly _ _ Hm) as [(w & Hw & _)|Hn].
    + right. right. exists e, c, w. split_and!; [done|done|]. right.
      destruct Hw as [->| ->]; destruct Ht as [_ ->]; done.
    + exfalso. apply Hn. by destruct c; cbn in *; try done; destruct Ht as [-> _]; apply elem_of_list_singleton.
  - destruct (Honly _ _ Hm) as [(w & Hw & Hsv)|Hn].
    + destruct (Hsend _ _ Hm) as [He Hl]. destruct (refused c) as [err|] eqn:Hrf.
      * rewrite mem_call_phases, (makes_refused e c err He Hl Hrf). cbn [fst].
        replace (st_keys (just k (Some v)) !! k) with (Some v) by (symmetry; apply just_at). done.
      * right. right. exists e, c, w. split_and!; [done|done|]. left. apply set_alone; try done.
    + exfalso. apply Hn. by destruct c; cbn in *; try done; destruct Ht as [-> _]; apply elem_of_list_singleton.
Qed.

Lemma c125_stays sh scripts s0 sched k n n' o o' :
  room_for_all scripts s0 -> n <= n' ->
  held sh scripts s0 sched k n o -> held sh scripts s0 sched k n' o' ->
  (forall b c m m' p p', call_at scripts b = Some c -> n <= m -> m' <= n' ->
     replaced sh scripts s0 sched b k m m' p p' -> p' = p) ->
  o' = o.
Proof.
  intros Hroom Hle Ho Ho' Hno.
  pose proof (c125_ledger _ _ _ _ _ _ _ _ _ Hroom Hle Ho Ho') as HL. clear Ho Ho' Hle.
  assert (Hge : forall x p, ledger sh scripts s0 sched k n o x p -> n <= x).
  { intros x p H. induction H as [|x m m' b c p p' H IH _ Hre _ Hx]; [done|]. destruct Hre. lia. }
  induction HL as [n' Hle|n' m m' b c p p' HL IHL Hc Hre Hch Hle]; [done|].
  assert (S m < m') by by destruct Hre.
  rewrite (Hno b c m m' p p' Hc (Hge _ _ HL) Hle Hre). apply IHL.
  intros b' c' i i' q q' Hc' H1 H2. apply (Hno b' c'); [done|done|lia].
Qed.

Lemma c125_tasks_stays sh tasks s0 sched k n n' o o' :
  sendable tasks -> tasks_fit tasks s0 -> n <= n' ->
  task_held sh tasks s0 sched k n o -> task_held sh tasks s0 sched k n' o' ->
  (forall a e c m m' p p', task_call tasks a = Some (e, c) -> n <= m -> m' <= n' ->
     task_replaced sh tasks s0 sched a k m m' p p' -> p' = p) ->
  o' = o.
Proof.
  intros Hsend Hfit Hle Ho Ho' Hno.
  pose proof (c125_tasks _ _ _ _ _ _ _ _ _ Hsend Hfit Hle Ho Ho') as HL. clear Ho Ho' Hle.
  assert (Hge : forall x p, task_ledger sh tasks s0 sched k n o x p -> n <= x).
  { intros x p H. induction H as [|x m m' b e c p p' H IH _ Hre _ Hx]; [done|]. destruct Hre. lia. }
  induction HL as [n' Hle|n' m m' b e c p p' HL IHL Hc Hre Hch Hle]; [done|].
  assert (S m < m') by by destruct Hre.
  rewrite (Hno b e c m m' p p' Hc (Hge _ _ HL) Hle Hre). apply IHL.
  intros b' e' c' i i' q q' Hc' H1 H2. apply (Hno b' e' c'); [done|done|lia].
Qed.

(** ** Each change *)

Lemma one_writer sh scripts s0 sched n z b b' k : lsys_run sh (take n sched) (lbegin scripts s0) = Some z ->
  writing sh z b k -> writing sh z b' k -> b' = b.
Proof.
  intros Hz (cl & Hcl & Hd & Hh) (cl' & Hcl' & Hd' & Hh').
  destruct (lsys_run_sim _ _ _ _ _ Hz) as (ps & f & _ & _ & _ & Hsim).
  destruct (Hsim (length (take n sched)) z) as (y & Hy & Hinv); [done|by rewrite firstn_all|]. clear Hsim.
  destruct (decide (b.1 = b'.1)) as [E|Hne].
  - rewrite <-E in Hcl'. assert (cl' = cl) as -> by congruence. destruct b, b'; cbn in *; congruence.
  - exfalso. by eapply (excl_write sh z y b.1 b'.1 cl cl' k Hinv).
Qed.

Lemma c125_each sh scripts s0 sched b c k n n' o o' :
  room_for_all scripts s0 -> call_at scripts b = Some c -> replaced sh scripts s0 sched b k n n' o o' ->
  o' = o \/ may_change sh scripts s0 sched b c k n o o'.
Proof.
  intros Hroom Hc (Hlt & Hn & Hn' & Hw).
  assert (Hheld : forall m p b1, noticed sh scripts s0 sched b1 k m p -> held sh scripts s0 sched k m p).
  { intros m p b1 (H1 & y & Hy & _ & Hu & Ho). split; [done|]. by exists y. }
  pose proof (c125_ledger _ _ _ _ _ n n' o o' Hroom ltac:(lia) (Hheld _ _ _ Hn) (Hheld _ _ _ Hn')) as HL.
  assert (Hge : forall x p, ledger sh scripts s0 sched k n o x p -> n <= x).
  { intros x p H. induction H as [|x m m' b1 c1 p p' H IH _ Hre _ Hx]; [done|]. destruct Hre. lia. }
  inversion HL as [n0 Hle|n0 m m' b1 c1 p o0 HL1 Hc1 (Hlt1 & Hm & Hm' & Hw1) Hch Hle]; subst; [by left|right].
  pose proof (Hge _ _ HL1) as Hnm. destruct Hn' as (_ & y' & Hy' & _).
  destruct (run_before _ _ _ _ (S n) n' y' Hy' ltac:(lia)) as [z Hz].
  assert (Emn : m = n).
  { destruct (decide (m = n)) as [|Hne]; [done|]. exfalso. destruct Hm as (_ & ym & Hym & _ & Hu & _).
    destruct (Hw m ym ltac:(lia) ltac:(lia) Hym) as (cl & Hcl & _ & Hh). eapply (Hu cl); [by eapply elem_of_list_lookup_2|done]. }
  subst m. assert (p = o) as ->.
  { destruct Hm as (_ & y1 & Hy1 & _ & _ & <-), Hn as (_ & y2 & Hy2 & _ & _ & <-). congruence. }
  assert (b1 = b) as ->.
  { eapply (one_writer sh scripts s0 sched (S n) z); [done|apply (Hw (S n)); [lia|lia|done]|apply (Hw1 (S n)); [lia|lia|done]]. }
  assert (c1 = c) as -> by congruence. done.
Qed.

(** ** Each change by a task *)

Lemma c125_tasks_each sh tasks s0 sched a e c k n n' o o' :
  sendable tasks -> tasks_fit tasks s0 -> task_call tasks a = Some (e, c) -> refused c = None ->
  task_replaced sh tasks s0 sched a k n n' o o' ->
  o' = o \/ task_may_change sh tasks s0 sched a e c k n o o'.
Proof.
  intros Hsend Hfit Hc Hr Hre. assert (Hm : made_by_one tasks e c) by by exists a.
  destruct (Hsend _ _ Hm) as [He Hl]. destruct (makes_built e c He Hl Hr) as (bl & Hb & _).
  destruct (tasks_call_at _ _ _ _ _ Hc Hb) as (b & Hs & Hd).
  destruct (c125_each sh (map dispatches tasks) s0 sched b _ k n n' o o' (fit_room _ _ Hfit) Hd) as [|Hch];
    [by eapply tasks_replaced|by left|right]. by eapply may_change_tasks.
Qed.
