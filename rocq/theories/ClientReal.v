(** Every history of a memory client whose arguments and values fit: lemmas for C42 and C43. *)
From Coq Require Import String.
From Verif Require Import Bytes Utf8 Float64 Value CommandId Request Response RespContext
  Metrics Prog Commands EngineSpec WireSpec RequestSpec BytesFacts RequestFacts RequestProps
  ResponseFacts FloatFacts ProgFacts CommandFacts HistorySpec EngineFacts EngineProps
  HistoryFacts Client ClientSpec ClientFacts ClientProps ClientRealSpec.
From stdpp Require Import gmap list.
From Coq Require Import NArith ZArith.
From Coq Require Import ZifyBool ZifyNat ZifyN Lia.

Definition really_agrees (out : store * client_res reply) (p : ideal * real) : Prop :=
  really_meets out.2 p.2 /\ st_keys out.1 = i_keys p.1 /\ counts_are out.1 (i_ok p.1) (i_err p.1) 0.

Definition rties (f : value -> client_res reply) (a : answer) (x : real) : Prop :=
  match a with
  | AVal v => sound v /\
      ((exists p, x = Does (Returns p) /\ f v = ROk p) \/ (x = PanicsAfter /\ f v = RPanic))
  | AErr er => x = Does (fails er)
  | AKeys m => False
  | ACrash => x = PanicsBefore
  end.

Lemma crash_state e s b c kt l ok err ks :
  env_ok e -> asks (into_request b) c kt l -> counts_are s ok err 0 -> (ok + err < 2 ^ 63)%N ->
  spec_command (debug e) (engine_stats s) c kt l (st_keys s) = (ks, ACrash) ->
  exists s', mem_send e s b = (s', RPanic) /\ st_keys s' = ks /\ counts_are s' ok err 0.
Proof.
  intros He (Hc & Hk & Hq) Hn Hb Hsp.
  assert (Hr : room s) by (eapply counts_room; [done|lia]).
  destruct (dispatch_answered e s (into_request b) [] l He Hq Hr) as [Ha Hks].
  pose proof (counts_dispatch e s (into_request b) [] ok err 0 Hn ltac:(lia)) as Hcn.
  cbn zeta in *. rewrite Hc, Hk, Hsp in Ha, Hks. cbn [fst snd answered] in *.
  unfold mem_send. destruct (dispatch e s (into_request b) []) as [s' r]. cbn [fst snd] in *.
  subst r. exists s'. split; [done|]. split; [by apply Hks|]. cbn in Hcn. by rewrite !N.add_0_r in Hcn.
Qed.

Lemma method_really e s b f c kt l call i :
  env_ok e -> asks (into_request b) c kt l -> st_keys s = i_keys i ->
  counts_are s (i_ok i) (i_err i) 0 -> (i_ok i + i_err i < 2 ^ 63)%N ->
  refused call = None ->
  let sp := spec_command (debug e) (engine_stats s) c kt l (i_keys i) in
  let re := really (debug e) (i_ok i) (i_err i) call (i_keys i) in
  sp.1 = re.1 -> rties f sp.2 re.2 ->
  really_agrees (mem_method e s (ROk b) f) (real_call (debug e) call i).
Proof.
  intros He Hq Hks Hc Hb Hrf sp re H1 H2.
  pose proof (mem_send_spec e s b c kt l _ _ He Hq Hc Hb) as Hs. rewrite Hks in Hs.
  pose proof (crash_state e s b c kt l _ _ sp.1 He Hq Hc Hb) as Hcr. rewrite Hks in Hcr.
  unfold real_call. rewrite Hrf. fold sp in Hs, Hcr. fold re.
  unfold sends_as in Hs. destruct sp as [ks a], re as [ks' x]. cbn [fst snd] in *. subst ks'.
  unfold mem_method. destruct a as [v|m|er|]; cbn [rties] in H2.
  - destruct H2 as (Hv & Hx). destruct (Hs Hv) as (s' & -> & Hk & Hn).
    destruct Hx as [(p & -> & Hp)|(-> & Hp)]; (split_and!; [exact Hp|done|done]).
  - done.
  - subst x. destruct Hs as (s' & -> & Hk & Hn). split_and!; done.
  - subst x. destruct (Hcr eq_refl) as (s' & -> & Hk & Hn). split_and!; done.
Qed.

Lemma is_reserved_spec k : is_reserved k = true <-> reserved k.
Proof.
  unfold is_reserved. rewrite bool_decide_eq_true. split.
  - intros H. exists (drop 8 k). rewrite <-H. by rewrite take_drop.
  - intros [r ->]. done.
Qed.
Lemma reserved_bad dbg k : is_reserved k = true -> bad_key dbg k = true.
Proof. unfold is_reserved, bad_key. by intros ->. Qed.
Lemma not_reserved_ordinary k : k <> [] -> is_reserved k = false -> ordinary k.
Proof. intros Hk H. split; [done|]. intros Hr. apply is_reserved_spec in Hr. congruence. Qed.


Lemma wrap_add a b : i64_wrap (a + i64_wrap b) = i64_wrap (a + b).
Proof.
  unfold i64_wrap. assert (Hm : i64_mod <> 0%Z) by done. revert Hm.
  generalize i64_half, i64_mod. intros h m Hm. f_equal.
  replace (a + ((b + h) mod m - h) + h)%Z with (a + (b + h) mod m)%Z by lia.
  rewrite Z.add_mod_idemp_r by done. f_equal. lia.
Qed.

Section call.
  Context (e : env) (s : store) (i : ideal).
  Context (He : env_ok e) (Hks : st_keys s = i_keys i) (Hc : counts_are s (i_ok i) (i_err i) 0)
    (Hb : (i_ok i + i_err i < 2 ^ 63)%N) (Hall : all_sound (i_keys i)).

  Notation ks := (i_keys i).
  Notation dbg := (debug e).

  (** The ways a number is taken from an answer. *)
  Definition any_number (v : value) : client_res reply :=
    rbind (or_panic (a_number v)) (fun v => ROk (RpValue v)).
  Definition number_of (t : key_type) (v : value) : client_res reply :=
    rbind (rbind (or_panic (a_number v)) (of_kind t)) (fun v => ROk (RpValue v)).

  Definition number_ties (sp : keyspace * answer) (re : keyspace * real) : Prop :=
    sp.1 = re.1 /\ rties any_number sp.2 re.2 /\
    forall t, rties (number_of t) sp.2 (only_if t re).2.

  Lemma int_number_ties z ks' :
    i64_range z -> number_ties (ks', AVal (VInteger z)) (ks', Does (Returns (RpValue (VInteger z)))).
  Proof.
    intros Hz. split; [done|]. split.
    - split; [by apply sound_int|]. left. by eexists.
    - intros t. split; [by apply sound_int|]. cbn. unfold number_of. cbn. unfold of_kind. cbn.
      destruct (decide (KTInteger = t)); [left; eexists; split; done|right; done].
  Qed.

  Lemma inc_ties k n :
    ordinary k -> i64_range n -> number_ties (spec_add_int dbg ks k n) (add_really dbg k n ks).
  Proof.
    intros Ho Hn. unfold spec_add_int, add_really. rewrite ordinary_ok by done.
    rewrite (bool_decide_eq_true_2 (i64_range n)) by done. rewrite andb_false_r.
    destruct (default (VInteger 0) (ks !! k)); try done.
    destruct (decide _) as [Hr|Hr].
    - rewrite bool_decide_eq_true_2, andb_false_r, i64_wrap_id by done. by apply int_number_ties.
    - rewrite bool_decide_eq_false_2 by done. destruct dbg; cbn; [done|].
      apply int_number_ties, i64_wrap_range.
  Qed.

  Lemma dec_really_ties k n a :
    ordinary k -> arg_int a = Some n ->
    number_ties (spec_decrement_by dbg ks k a) (add_really dbg k (- n) ks).
  Proof.
    intros Ho Hn. unfold spec_decrement_by. rewrite Hn. destruct (decide _) as [Hr|Hr].
    { by apply inc_ties. }
    unfold add_really. rewrite (bool_decide_eq_false_2 (i64_range (- n))) by done.
    destruct dbg eqn:Hd; [done|]. cbn [andb negb].
    unfold spec_add_int. rewrite ordinary_ok by done.
    destruct (default (VInteger 0) (ks !! k)); try done.
    destruct (decide _) as [Hr'|Hr'].
    - rewrite <- wrap_add, (i64_wrap_id (_ + _)) by done. by apply int_number_ties.
    - rewrite wrap_add. apply int_number_ties, i64_wrap_range.
  Qed.

  Lemma float_bits x : (x < u64_mod)%N -> arg_int (be_enc 8 x) = Some (i64_of_u64 x) /\ i64_range (i64_of_u64 x).
  Proof.
    intros Hx. split.
    - unfold arg_int. rewrite be_enc_len. cbn [Nat.leb].
      rewrite take_ge by (by rewrite be_enc_len). unfold i64_dec. by rewrite be8.
    - unfold i64_range, i64_of_u64, i64_half, i64_mod. unfold u64_mod in Hx. destruct (_ <? _)%Z eqn:E; lia.
  Qed.

  Lemma float_step_ties k x :
    ordinary k -> (forall f, ks !! k <> Some (VFloat f)) ->
    spec_add_float dbg ks k x =
      (match ks !! k with None => <[k := VInteger 0]> ks | Some _ => ks end, AErr EKeyTypeDifferent).
  Proof.
    intros Ho Hk. unfold spec_add_float. rewrite ordinary_ok by done.
    destruct (ks !! k) as [[]|]; try done. by destruct (Hk bits).
  Qed.

  Lemma key_nonempty k (x : option client_error) :
    (if is_empty k then Some (CEBuildingRequest BEArgumentEmpty) else x) = None -> k <> [] /\ x = None.
  Proof. destruct (is_empty k) eqn:Hk; [done|]. split; [by apply is_empty_false|done]. Qed.

  Lemma call_really c : fits dbg c i -> really_agrees (mem_call e s c) (real_call dbg c i).
  Proof.
    intros (Hs & Hlen & Hwf & Hnew). destruct (refused c) as [err|] eqn:Hr.
    { rewrite mem_call_method, (makes_refused e c err) by done. cbn [mem_method].
      unfold real_call. rewrite Hr. by split_and!. }
    assert (Hdirect : (let '(cmd, kt, l) := request_of e c in
        let sp := spec_command dbg (engine_stats s) cmd kt l ks in
        let re := really dbg (i_ok i) (i_err i) c ks in
        sp.1 = re.1 /\ rties (opened (@or_panic) c) sp.2 re.2) ->
      really_agrees (mem_call e s c) (real_call dbg c i)).
    { intros H. rewrite mem_call_method. destruct (makes_built e c He Hs Hr) as (b & -> & Hm).
      apply makes_asks in Hm. destruct (request_of e c) as [[cmd kt] l]. destruct H.
      by eapply method_really. }
    assert (Hmap : regular c ks -> (refuses_reserved c = true -> Forall (fun k => ~ reserved k) (named c)) ->
      in_range c ks ->
      (really dbg (i_ok i) (i_err i) c ks =
       let '(ks', x) := act (i_ok i) (i_err i) c ks in (ks', Does x)) ->
      really_agrees (mem_call e s c) (real_call dbg c i)).
    { intros Hreg Hres Hin Hre.
      assert (Heq : (map_call c i).1 = (real_call dbg c i).1 /\
                    (real_call dbg c i).2 = Does (map_call c i).2).
      { unfold map_call, real_call. rewrite Hr, Hre. by destruct (act _ _ _ _) as [ks' []]. }
      destruct Heq as [H1 H2].
      destruct (call_agrees e s i He Hks Hc Hb Hall c) as (A & B & C).
      - split_and!; rewrite ?H1; done.
      - done.
      - unfold really_agrees. rewrite <-H1, H2. done. }
    assert (Hnr : forall k, is_reserved k = false -> ~ reserved k).
    { intros k Hk Hk'. apply is_reserved_spec in Hk'. congruence. }
    assert (Happ : forall k v, (c = KAppend k v \/ c = KAppendTyped k v) ->
      really_agrees (mem_call e s c) (real_call dbg c i)).
    { intros k v Hcv.
      assert (Hr' : refused (KAppend k v) = None) by (by destruct Hcv as [->| ->]).
      destruct (is_reserved k) eqn:Hk.
      - apply Hdirect. clear Hdirect Hmap. cbn in Hr'. apply key_nonempty in Hr' as [Hne Hr'].
        assert (Hre : really dbg (i_ok i) (i_err i) c ks = (ks, PanicsBefore)).
        { unfold really. destruct Hcv as [->| ->]; cbn; by rewrite Hk. }
        assert (Hq : request_of e c = (CAppend, Some (kind v), k :: value_args e v))
          by (by destruct Hcv as [->| ->]).
        rewrite Hq, Hre. cbn [spec_command]. unfold spec_append.
        destruct v; try done; cbn [kind type_or]; rewrite reserved_bad by done; done.
      - apply Hmap.
        + by destruct Hcv as [->| ->].
        + intros _. destruct Hcv as [->| ->]; apply Forall_singleton; by apply Hnr.
        + by destruct Hcv as [->| ->].
        + unfold really. destruct Hcv as [->| ->]; cbn [trips]; by rewrite Hk. }
    assert (Hset : forall k v, (c = KSet k v \/ c = KSetTyped k v) ->
      really_agrees (mem_call e s c) (real_call dbg c i)).
    { intros k v Hcv.
      assert (Hr' : refused (KSet k v) = None) by (by destruct Hcv as [->| ->]).
      assert (Hv : value_wf v) by (apply Hwf; by destruct Hcv as [->| ->]).
      assert (Hq : request_of e c = (CSet, Some (kind v), k :: value_args e v))
        by (by destruct Hcv as [->| ->]).
      pose proof Hr' as Hr1. cbn in Hr1. apply key_nonempty in Hr1 as [Hne Hve].
      destruct (decide (v = VList [])) as [->|Hnl].
      - apply Hdirect. clear Hdirect Hmap. rewrite Hq. unfold really.
        destruct Hcv as [->| ->]; done.
      - assert (Htr : trips c ks = is_reserved k).
        { destruct Hcv as [->| ->]; cbn; destruct v; try done; by destruct l. }
        destruct (is_reserved k) eqn:Hk.
        + apply Hdirect. clear Hdirect Hmap. rewrite Hq. unfold really. rewrite Htr.
          assert (Hva : value_args e v <> []).
          { apply value_args_nonempty; [done|by destruct (value_empty v)|done]. }
          assert (Htd : tripped c ks = delete k ks) by (by destruct Hcv as [->| ->]). rewrite Htd.
          destruct (value_args e v) as [|a r] eqn:Hve'; [done|]. cbn [spec_command]. unfold spec_set.
          cbn [type_or]. rewrite <- Hve', spells_value_of, reserved_bad; try done.
          * by apply value_args_spells.
          * by rewrite Hve'.
        + apply Hmap.
          * by destruct Hcv as [->| ->].
          * intros _. destruct Hcv as [->| ->]; apply Forall_singleton; by apply Hnr.
          * by destruct Hcv as [->| ->].
          * unfold really. rewrite Htr. destruct Hcv as [->| ->]; cbn [amount adds];
              destruct v as [| | | |[|]| | |]; done. }
    assert (Hby : forall (up : bool) k v, not_number v = false -> value_wf v -> k <> [] ->
      request_of e c = (if up then CIncrementBy else CDecrementBy, Some (kind v), k :: value_args e v) ->
      trips c ks = is_reserved k -> tripped c ks = ks ->
      amount c = Some (k, match v with
                          | VInteger z => if up then z else (- z)%Z
                          | VFloat x => if up then i64_of_u64 x else (- i64_of_u64 x)%Z
                          | _ => 0%Z
                          end) ->
      (match c with
       | KIncrementBy _ _ | KDecrementBy _ _ => opened (@or_panic) c = any_number
       | KIncrementInt _ _ | KDecrementInt _ _ => opened (@or_panic) c = number_of KTInteger
       | KIncrementFloat _ _ | KDecrementFloat _ _ => opened (@or_panic) c = number_of KTFloat
       | _ => False
       end) ->
      really_agrees (mem_call e s c) (real_call dbg c i)).
    { intros up k v Hnn Hv Hne Hq Htr Htd Ham Hop. apply Hdirect. clear Hdirect Hmap Happ Hset.
      rewrite Hq. cbn zeta. unfold really. rewrite Htr, Htd.
      destruct (value_args e v) as [|a r] eqn:Hva; [by destruct v|].
      set (n := match v with VInteger z => z | VFloat x => i64_of_u64 x | _ => 0%Z end).
      assert (Ha : arg_int a = Some n /\ i64_range n /\ r = []).
      { destruct v; try done; injection Hva as <- <-; cbn in Hv; subst n.
        - by destruct (float_bits bits Hv).
        - split; [by apply arg_int_enc|done]. }
      destruct Ha as (Ha & Hn & ->).
      destruct (is_reserved k) eqn:Hk.
      { assert (Hcr : spec_command dbg (engine_stats s) (if up then CIncrementBy else CDecrementBy)
          (Some (kind v)) [k; a] ks = (ks, ACrash)).
        { destruct up; cbn [spec_command]; unfold spec_increment_by, spec_decrement_by; rewrite Ha;
            unfold spec_add_int; rewrite ?reserved_bad by done; [done|].
          destruct (decide _); [done|]. by destruct dbg. }
        by rewrite Hcr. }
      assert (Ho : ordinary k) by (by apply not_reserved_ordinary).
      assert (Hties : number_ties (spec_command dbg (engine_stats s) (if up then CIncrementBy else CDecrementBy)
          (Some (kind v)) [k; a] ks) (add_really dbg k (if up then n else (- n)%Z) ks)).
      { destruct up; cbn [spec_command].
        - unfold spec_increment_by. rewrite Ha. by apply inc_ties.
        - by apply dec_really_ties. }
      assert (Ham' : amount c = Some (k, if up then n else (- n)%Z)).
      { rewrite Ham. by destruct v, up. }
      destruct Hties as (T1 & T2 & T3). clear Ham Hq Htr Htd Hr Hs Hlen Hwf Hnew.
      destruct c; try done; rewrite ?Hop.
      1,2: rewrite Ham'; done.
      all: rewrite Ham'; split; [exact T1|apply T3]. }
    assert (Hstep : forall (up : bool) k t, k <> [] ->
      c = (if up then KIncrement k t else KDecrement k t) ->
      really_agrees (mem_call e s c) (real_call dbg c i)).
    { intros up k t Hne Hcv. apply Hdirect. clear Hdirect Hmap Happ Hset Hby. cbn zeta.
      assert (Hq : request_of e c = (if up then CIncrement else CDecrement, t, [k]))
        by (subst c; by destruct up).
      assert (Hop : opened (@or_panic) c = any_number) by (subst c; by destruct up).
      rewrite Hq, Hop. clear Hq Hop. destruct (is_reserved k) eqn:Hk.
      { assert (Hre : really dbg (i_ok i) (i_err i) c ks = (ks, PanicsBefore)).
        { unfold really. subst c; destruct up; cbn; by rewrite Hk. }
        rewrite Hre.
        destruct up, t as [[]|]; cbn [spec_command]; unfold spec_add_int, spec_add_float;
          rewrite reserved_bad by done; done. }
      assert (Ho : ordinary k) by (by apply not_reserved_ordinary).
      assert (Htr : trips c ks = false) by (subst c; by destruct up).
      unfold really. rewrite Htr. destruct (decide (t = Some KTFloat)) as [->|Ht].
      - destruct (ks !! k) as [v|] eqn:Hv.
        + assert (Hsp : spec_command dbg (engine_stats s) (if up then CIncrement else CDecrement) (Some KTFloat) [k] ks
            = spec_add_float dbg ks k (if up then f64_one else f64_minus_one)) by (by destruct up).
          rewrite Hsp. unfold spec_add_float. rewrite ordinary_ok, Hv by done.
          assert (Hact : act (i_ok i) (i_err i) c ks =
            add_float k (if up then 1 else -1) f64_one ks) by (subst c; by destruct up).
          subst c. destruct up; rewrite Hv, Hact; unfold add_float; rewrite Hv; cbn [default from_option id];
            destruct v; try done; cbn [Z.ltb Z.compare fst snd]; try rewrite <- sub_one;
            (split; [done|]); (split; [apply sound_float, f64_add_lt|]); left; by eexists.
        + assert (Hsp : spec_command dbg (engine_stats s) (if up then CIncrement else CDecrement) (Some KTFloat) [k] ks
            = spec_add_float dbg ks k (if up then f64_one else f64_minus_one)) by (by destruct up).
          rewrite Hsp, float_step_ties, Hv by (try done; intros f; by rewrite Hv).
          subst c. destruct up; by rewrite Hv.
      - assert (Hsp : spec_command dbg (engine_stats s) (if up then CIncrement else CDecrement) t [k] ks
            = spec_add_int dbg ks k (if up then 1 else -1)) by (by destruct up, t as [[]|]).
        rewrite Hsp.
        destruct (inc_ties k (if up then 1 else -1)%Z Ho ltac:(by destruct up)) as (T1 & T2 & _).
        subst c. destruct up; destruct t as [[]|]; done. }
    destruct c; cbn [named carried] in *.
    - by eapply Happ; left.
    - cbn in Hr. apply key_nonempty in Hr as [Hne _]. by eapply (Hstep false).
    - cbn in Hr. apply key_nonempty in Hr as [Hne Hr].
      assert (Hnn : not_number v = false) by (by destruct (not_number v)).
      eapply (Hby false k v); try done; [by apply Hwf|]. by destruct v.
    - apply Hmap; done.
    - apply Hmap; done.
    - apply Hmap; done.
    - cbn in Hr. apply key_nonempty in Hr as [Hne _]. destruct (is_reserved k) eqn:Hk.
      + apply Hdirect. cbn [request_of spec_command]. unfold really. cbn [trips]. rewrite Hk.
        unfold spec_get. by rewrite reserved_bad.
      + apply Hmap; try done; [intros _; apply Forall_singleton; by apply Hnr|].
        unfold really. cbn [trips]. by rewrite Hk.
    - cbn in Hr. apply key_nonempty in Hr as [Hne _]. by eapply (Hstep true).
    - cbn in Hr. apply key_nonempty in Hr as [Hne Hr].
      assert (Hnn : not_number v = false) by (by destruct (not_number v)).
      eapply (Hby true k v); try done; [by apply Hwf|]. by destruct v.
    - apply Hmap; done.
    - apply Hmap; done.
    - cbn in Hr. apply key_nonempty in Hr as [Hne _]. destruct (is_reserved k) eqn:Hk.
      + apply Hdirect. cbn [request_of spec_command]. unfold really. cbn [trips]. rewrite Hk.
        unfold spec_keys. cbn [type_or]. rewrite reserved_bad by done.
        cbn [act]. destruct (ks !! k) as [v|] eqn:Hv; [|done]. by destruct v.
      + apply Hmap; try done; [intros _; apply Forall_singleton; by apply Hnr|].
        unfold really. cbn [trips]. by rewrite Hk.
    - cbn in Hr. apply key_nonempty in Hr as [Hne _]. destruct (is_reserved k) eqn:Hk.
      + apply Hdirect. cbn [request_of spec_command]. unfold really. cbn [trips].
        unfold spec_length. destruct t as [t|]; cbn [type_or].
        * rewrite Hk. destruct t; cbn; rewrite ?reserved_bad by done; done.
        * rewrite Hk. rewrite reserved_bad by done. cbn [act].
          destruct (ks !! k) as [v|] eqn:Hv; [|done]. destruct v; cbn; rewrite ?decide_True by (by left); done.
      + apply Hmap; try done; [intros _; apply Forall_singleton; by apply Hnr|].
        unfold really. cbn [trips]. rewrite Hk. by destruct t.
    - apply Hmap; done.
    - by eapply Hset; left.
    - apply Hmap; done.
    - cbn in Hr. apply key_nonempty in Hr as [Hne _]. destruct (is_reserved k) eqn:Hk.
      + apply Hdirect. cbn [request_of spec_command]. unfold really. cbn [trips]. rewrite Hk.
        unfold spec_get. by rewrite reserved_bad.
      + apply Hdirect. cbn [request_of spec_command]. unfold really. cbn [trips]. rewrite Hk.
        unfold spec_get. rewrite ordinary_ok by (by apply not_reserved_ordinary). cbn [act].
        destruct (ks !! k) as [v|] eqn:Hv; [|done]. cbn. split; [done|].
        split; [by apply (Hall k)|]. unfold of_kind.
        destruct (decide (kind v = t)); [left; eexists; split; done|by right].
    - by eapply Hset; right.
    - by eapply Happ; right.
    - cbn in Hr. apply key_nonempty in Hr as [Hne _].
      eapply (Hby true k (VInteger (default 1%Z n))); try done. by apply Hwf.
    - cbn in Hr. apply key_nonempty in Hr as [Hne _].
      eapply (Hby true k (VFloat (default f64_one x))); try done. by apply Hwf.
    - cbn in Hr. apply key_nonempty in Hr as [Hne _].
      eapply (Hby false k (VInteger (default 1%Z n))); try done. by apply Hwf.
    - cbn in Hr. apply key_nonempty in Hr as [Hne _].
      eapply (Hby false k (VFloat (default f64_one x))); try done. by apply Hwf.
  Qed.
End call.

(** ** Histories *)

Lemma real_call_sum d c i :
  (i_ok (real_call d c i).1 + i_err (real_call d c i).1 <= i_ok i + i_err i + 1)%N.
Proof.
  unfold real_call. destruct (refused c); cbn; [lia|].
  destruct (really _ _ _ _ _) as [ks [[]| |]]; cbn; lia.
Qed.

Lemma real_calls_agree h : forall s i,
  st_keys s = i_keys i -> counts_are s (i_ok i) (i_err i) 0 -> all_sound (i_keys i) ->
  (i_ok i + i_err i + lenN h < 2 ^ 63)%N -> all_fit h i ->
  let '(s', rs) := mem_calls h s in
  let '(i', xs) := real_calls h i in
  Forall2 really_meets rs xs /\ st_keys s' = i_keys i' /\
  counts_are s' (i_ok i') (i_err i') 0 /\ (i_ok i' + i_err i' <= i_ok i + i_err i + lenN h)%N /\
  all_sound (i_keys i').
Proof.
  induction h as [|[e c] h IH]; intros s i Hks Hc Hall Hb Hw; cbn [mem_calls real_calls].
  { change (lenN []) with 0%N in *. split_and!; try done. lia. }
  destruct Hw as (He & Hw & Hrest). rewrite lenN_cons in Hb.
  pose proof (call_really e s i He Hks Hc ltac:(lia) Hall c Hw) as (H1 & H2 & H3).
  assert (Hall' : all_sound (i_keys (real_call (debug e) c i).1)) by apply Hw.
  pose proof (real_call_sum (debug e) c i).
  destruct (mem_call e s c) as [s1 r1], (real_call (debug e) c i) as [i1 x1]. cbn [fst snd] in *.
  specialize (IH s1 i1 H2 H3 Hall' ltac:(lia) Hrest).
  destruct (mem_calls h s1) as [s2 rs], (real_calls h i1) as [i2 xs].
  destruct IH as (IH1 & IH2 & IH3 & IH4 & IH5). rewrite lenN_cons.
  split_and!; [apply Forall2_cons; by split|done|done|lia|done].
Qed.

Lemma c42_every_history h :
  (lenN h < 2 ^ 63)%N -> all_fit h ideal_new ->
  let '(s, rs) := mem_calls h store_new in
  let '(i, xs) := real_calls h ideal_new in
  Forall2 really_meets rs xs /\ st_keys s = i_keys i.
Proof.
  intros Hl Hw. pose proof (real_calls_agree h store_new ideal_new eq_refl) as H.
  destruct (mem_calls h store_new) as [s rs], (real_calls h ideal_new) as [i xs].
  destruct H as (H1 & H2 & _); done.
Qed.

Lemma all_fit_snoc h e c : forall i, all_fit (h ++ [(e, c)]) i ->
  all_fit h i /\ env_ok e /\ fits (debug e) c (real_calls h i).1.
Proof.
  induction h as [|[e' c'] h IH]; intros i H; cbn [app all_fit real_calls] in *; [by destruct H as (? & ? & _)|].
  destruct H as (H1 & H2 & H3). destruct (IH _ H3) as (I1 & I2 & I3).
  destruct (real_call (debug e') c' i) as [i1 x1]. cbn [fst] in *.
  destruct (real_calls h i1) as [i2 xs]. done.
Qed.

Definition panics (x : real) : Prop := match x with Does _ => False | _ => True end.

Lemma meets_panic r x : really_meets r x -> (r = RPanic <-> panics x).
Proof.
  destruct x as [[p|m|err]| |]; cbn; try done.
  - by intros ->.
  - by intros (l & -> & _).
  - by intros ->.
Qed.

Lemma add_panics d k n ks :
  panics (add_really d k n ks).2 <-> d = true /\ overflows ks k n.
Proof.
  unfold add_really, overflows. destruct (bool_decide (i64_range n)) eqn:E1.
  - apply bool_decide_eq_true in E1. rewrite andb_false_r.
    destruct (default (VInteger 0) (ks !! k)) as [| | |z| | | |] eqn:Hd;
      try (split; [done|]; intros (_ & [?|(? & ? & _)]); done).
    destruct (bool_decide (i64_range (z + n))) eqn:E2.
    + apply bool_decide_eq_true in E2. rewrite andb_false_r. split; [done|].
      intros (_ & [?|(? & [= <-] & ?)]); done.
    + apply bool_decide_eq_false in E2. rewrite andb_true_r. destruct d; cbn.
      * split; [|done]. intros _. split; [done|]. right. by eexists.
      * by split; [|intros [? _]].
  - apply bool_decide_eq_false in E1. destruct d; cbn.
    + split; [|done]. intros _. split; [done|]. by left.
    + destruct (default (VInteger 0) (ks !! k)); by split; [|intros [? _]].
Qed.

Lemma only_if_panics d t k n ks : t = KTInteger ->
  panics (only_if t (add_really d k n ks)).2 <-> panics (add_really d k n ks).2.
Proof.
  intros ->. unfold only_if. cbn [snd]. unfold add_really.
  destruct (d && negb _); [done|]. destruct (default _ _); try done. destruct (d && negb _); done.
Qed.
Lemma only_if_float d k n ks :
  panics (only_if KTFloat (add_really d k n ks)).2 <->
  d = true /\ overflows ks k n \/ exists z, default (VInteger 0) (ks !! k) = VInteger z.
Proof.
  rewrite <- add_panics. unfold only_if. cbn [snd]. unfold add_really.
  destruct (d && negb _); [by split; [left|]|].
  destruct (default _ _) as [| | |z| | | |]; try (split; [done|]; by intros [?|[? ?]]).
  destruct (d && negb _); [by split; [left|]|]. split; [|done]. intros _. right. by eexists.
Qed.

Lemma really_panics d ok err c ks :
  panics (really d ok err c ks).2 <->
  on_internal c ks \/ (d = true /\ overflow_in c ks) \/ wrong_kind c ks.
Proof.
  unfold really, on_internal, overflow_in, wrong_kind.
  destruct (trips c ks) eqn:Htr; [by split; [left|]|].
  assert (Hx : panics (let '(ks', x) := act ok err c ks in (ks', Does x)).2 <-> False).
  { by destruct (act ok err c ks). }
  assert (Hno : amount c = None -> ~ exists k n, amount c = Some (k, n) /\ overflows ks k n).
  { intros H (k & n & H' & _). congruence. }
  assert (Hyes : forall k n, amount c = Some (k, n) ->
    ((exists k n, amount c = Some (k, n) /\ overflows ks k n) <-> overflows ks k n)).
  { intros k n H. split; [|by eauto]. intros (k' & n' & H' & Ho). rewrite H in H'. by injection H' as <- <-. }
  assert (Hsome : forall k n, amount c = Some (k, n) ->
    (panics (add_really d k n ks).2 <-> false = true \/ (d = true /\ exists k n, amount c = Some (k, n) /\ overflows ks k n) \/ False)).
  { intros k n H. rewrite add_panics, (Hyes k n H). split; [by auto|]. by intros [?|[?|?]]. }
  assert (Hnone : amount c = None -> forall P Q, (P <-> Q) ->
    (P <-> false = true \/ (d = true /\ exists k n, amount c = Some (k, n) /\ overflows ks k n) \/ Q)).
  { intros H P Q HPQ. specialize (Hno H). rewrite HPQ. split; [by auto|]. by intros [?|[[_ ?]|?]]. }
  destruct c; try (apply Hnone; [done|exact Hx]).
  - destruct t as [[]|]; try (by apply Hsome). apply Hnone; [done|]. by destruct (ks !! k).
  - destruct v; try (apply Hnone; [done|exact Hx]); by apply Hsome.
  - destruct t as [[]|]; try (by apply Hsome). apply Hnone; [done|]. by destruct (ks !! k).
  - destruct v; try (apply Hnone; [done|exact Hx]); by apply Hsome.
  - destruct v as [| | | |[]| | |]; (apply Hnone; [done|]); try exact Hx; done.
  - apply Hnone; [done|]. cbn. destruct (ks !! k) as [v|]; cbn.
    + destruct (decide (kind v = t)); cbn; split; try done; [by intros (? & [= <-] & ?)|]. by eexists.
    + split; [done|]. by intros (? & ? & _).
  - destruct v as [| | | |[]| | |]; (apply Hnone; [done|]); try exact Hx; done.
  - cbn [amount adds]. rewrite only_if_panics by done. by apply Hsome.
  - cbn [amount]. rewrite only_if_float. rewrite (Hyes _ _ eq_refl). split; [|by intros [?|?]].
    intros H; by right.
  - cbn [amount adds]. rewrite only_if_panics by done. by apply Hsome.
  - cbn [amount]. rewrite only_if_float. rewrite (Hyes _ _ eq_refl). split; [|by intros [?|?]].
    intros H; by right.
Qed.

Lemma c43_exactly h e c :
  (lenN h < 2 ^ 63 - 1)%N -> all_fit (h ++ [(e, c)]) ideal_new ->
  let s := (mem_calls h store_new).1 in
  (mem_call e s c).2 = RPanic <->
  refused c = None /\
  (on_internal c (st_keys s) \/ (debug e = true /\ overflow_in c (st_keys s)) \/
   wrong_kind c (st_keys s)).
Proof.
  intros Hl Hw s. apply all_fit_snoc in Hw as (Hw & He & Hf).
  pose proof (real_calls_agree h store_new ideal_new eq_refl) as H. subst s.
  destruct (mem_calls h store_new) as [s rs], (real_calls h ideal_new) as [i xs].
  destruct H as (_ & Hks & Hc & Hsum & Hall); try done; [change (i_ok ideal_new) with 0%N; change (i_err ideal_new) with 0%N; lia|].
  cbn [fst] in *. change (i_ok ideal_new) with 0%N in Hsum. change (i_err ideal_new) with 0%N in Hsum.
  destruct (call_really e s i He Hks Hc ltac:(lia) Hall c Hf) as (Hm & _).
  rewrite (meets_panic _ _ Hm), Hks. unfold real_call. destruct (refused c) as [err|].
  { split; [done|]. by intros [? _]. }
  rewrite <- (really_panics (debug e) (i_ok i) (i_err i)).
  destruct (really _ _ _ _ _) as [ks [[]| |]]; cbn; split; try done; by intros [_ ?].
Qed.

(** ** For examples *)

Definition ok_fit (d : bool) (c : client_call) (i : ideal) : bool :=
  (sends c <=? 255)%N && forallb (fun k => lenN k <? 2 ^ 32 - 16)%N (named c) &&
  match carried c with Some v => wf_value v | None => true end &&
  ok_keys (i_keys (real_call d c i).1).

Lemma ok_fit_fits d c i : ok_fit d c i = true -> fits d c i.
Proof.
  unfold ok_fit. intros [[[H1 H2]%andb_true_iff H3]%andb_true_iff H4]%andb_true_iff.
  apply ok_keys_sound in H4. split_and!; try done; [lia| |].
  - rewrite forallb_forall in H2. apply Forall_forall. intros k Hk.
    specialize (H2 k). rewrite <-elem_of_list_In in H2. specialize (H2 Hk). lia.
  - intros v Hv. rewrite Hv in H3. by apply wf_value_wf.
Qed.

Fixpoint ok_fits (h : list (bool * client_call)) (i : ideal) : bool :=
  match h with
  | [] => true
  | (d, c) :: h => ok_fit d c i && ok_fits h (real_call d c i).1
  end.
Lemma ok_fits_all_fit h : forall i, ok_fits h i = true ->
  all_fit (map (fun dc => (env_std dc.1, dc.2)) h) i.
Proof.
  induction h as [|[d c] h IH]; intros i; [done|]. cbn [ok_fits map all_fit fst snd].
  intros [H1%ok_fit_fits H2]%andb_true_iff. split; [apply env_std_ok|]. by split; [|apply IH].
Qed.
