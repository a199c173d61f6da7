(** Proofs for C105: from the map of C42. *)
From Verif Require Import Bytes BytesFacts Utf8 Float64 Value CommandId Request Response RespContext
  Metrics Prog Commands EngineSpec WireSpec RequestSpec HistorySpec EngineProps HistoryFacts Client ClientSpec
  ClientFacts DocSpec.
From stdpp Require Import gmap list.
From Coq Require Import NArith ZArith Lia.

Lemma calls_state h : forall s i,
  st_keys s = i_keys i -> counts_are s (i_ok i) (i_err i) 0 -> all_sound (i_keys i) ->
  (i_ok i + i_err i + lenN h < 2 ^ 63)%N -> all_within h i ->
  let s' := (mem_calls h s).1 in let i' := (map_calls h i).1 in
  st_keys s' = i_keys i' /\ counts_are s' (i_ok i') (i_err i') 0 /\ all_sound (i_keys i') /\
  (i_ok i' + i_err i' <= i_ok i + i_err i + lenN h)%N.
Proof.
  induction h as [|[e c] h IH]; intros s i Hks Hc Hall Hb Hw; cbn [mem_calls map_calls].
  { cbn. split_and!; try done. lia. }
  destruct Hw as (He & Hw & Hreg & Hrest). rewrite lenN_cons in *.
  pose proof (call_agrees e s i He Hks Hc ltac:(lia) Hall c Hw Hreg) as (H1 & H2 & H3).
  assert (Hall' : all_sound (i_keys (map_call c i).1)) by apply Hw.
  pose proof (map_call_sum c i).
  destruct (mem_call e s c) as [s1 r1], (map_call c i) as [i1 x1]. cbn [fst snd] in *.
  specialize (IH s1 i1 H2 H3 Hall' ltac:(lia) Hrest). cbn zeta in IH.
  destruct (mem_calls h s1) as [s2 rs], (map_calls h i1) as [i2 xs]. cbn [fst snd] in *.
  destruct IH as (A & B & C & D). split_and!; try done. lia.
Qed.

Lemma all_within_app h h' : forall i,
  all_within (h ++ h') i <-> all_within h i /\ all_within h' (map_calls h i).1.
Proof.
  induction h as [|[e c] h IH]; intros i; cbn [app all_within map_calls]; [tauto|].
  destruct (map_call c i) as [i1 x1] eqn:E. cbn [fst]. rewrite IH.
  destruct (map_calls h i1) as [i2 xs]. cbn [fst]. tauto.
Qed.

(** The call after a history: the map's answer. *)
Lemma call_after h e c : (lenN h + 1 < 2 ^ 63)%N -> all_within (h ++ [(e, c)]) ideal_new ->
  let s := (mem_calls h store_new).1 in let i := (map_calls h ideal_new).1 in
  st_keys s = i_keys i /\ within c i /\ regular c (i_keys i) /\ all_sound (i_keys i) /\
  agrees (mem_call e s c) (map_call c i).
Proof.
  intros Hl (Hw & He & Hw1 & Hreg & _)%all_within_app.
  destruct (calls_state h store_new ideal_new) as (H1 & H2 & H3 & H4); try done.
  { cbn [i_ok i_err ideal_new]. lia. }
  cbn [i_ok i_err ideal_new] in H4. cbn zeta. split_and!; try done. apply call_agrees; try done. lia.
Qed.

Lemma forallb_true {A} (f : A -> bool) l : (forall x, x ∈ l -> f x = true) -> forallb f l = true.
Proof. intros H. apply forallb_forall. intros x Hx. by apply H, elem_of_list_In. Qed.
Lemma forallb_false {A} (f : A -> bool) l x : x ∈ l -> f x = false -> forallb f l = false.
Proof.
  intros Hx Hf. apply not_true_iff_false. intros H. rewrite forallb_forall in H.
  rewrite H in Hf; [done|]. by apply elem_of_list_In.
Qed.

Lemma c105_described h e c :
  (lenN h + 1 < 2 ^ 63)%N -> all_within (h ++ [(e, c)]) ideal_new -> refused c = None ->
  let s := (mem_calls h store_new).1 in
  let '(s', r) := mem_call e s c in
  misdescribed (st_keys s) c = false -> as_documented (st_keys s) c r (st_keys s').
Proof.
  intros Hl Hw Href. destruct (call_after h e c Hl Hw) as (Hks & Hin & Hreg & Hall & Hm & Hk & _).
  cbn zeta. rewrite Hks. set (i := (map_calls h ideal_new).1) in *. set (ks := i_keys i) in *.
  destruct (mem_call e _ c) as [s' r]. cbn [fst snd] in Hm, Hk. intros Hmis.
  unfold map_call in Hm, Hk. rewrite Href in Hm, Hk. fold ks in Hm, Hk.
  destruct (act (i_ok i) (i_err i) c ks) as [ks' x] eqn:Hact.
  assert (Hk' : st_keys s' = ks') by (by destruct x). rewrite Hk'. clear Hk.
  assert (Hm' : meets r x) by (by destruct x). clear Hm.
  assert (Hfail : forall er, x = fails er -> errs r).
  { intros er ->. eexists. exact Hm'. }
  destruct c as [k v|k t|k v|k|b|l|k|k t|k v|t l|k|k|k t|a b|k v| |k t|k v|k v|k n|k y|k n|k y];
    cbn [act as_documented misdescribed] in *; try done.
  - (* append *)
    destruct (ks !! k) as [old|] eqn:Hv; [|done]. split; [done|]. intros p ->.
    destruct (joined old v); injection Hact as <- <-; cbn in Hm'; [|done].
    injection Hm' as ->. eexists. split; [done|]. apply lookup_insert.
  - (* decrement *)
    destruct t; [done|]. unfold steps_by_one. unfold add_number, the_one, add_int in Hact.
    rewrite decide_False in Hact by done.
    destruct (ks !! k) as [[]|] eqn:Hv; cbn in Hact; injection Hact as <- <-; cbn in Hm'; done.
  - destruct (ks !! k) as [v|] eqn:Hv; intros [? Hs]; [|done]. by injection Hact as <- <-.
  - by injection Hact as <- <-.
  - intros Hne. destruct l as [|k0 l]; [done|]. injection Hact as <- <-. cbn [meets] in Hm'.
    change (is_present ks k0 && forallb (is_present ks) l) with (forallb (is_present ks) (k0 :: l)) in Hm'.
    split.
    + intros Ha. rewrite forallb_true in Hm'; [done|]. intros k Hin'. unfold is_present.
      by destruct (Ha k Hin') as [? ->].
    + intros k Hin' Hn. rewrite (forallb_false _ _ k) in Hm'; [done|done|]. unfold is_present. by rewrite Hn.
  - intros v Hv. rewrite Hv in Hact. by injection Hact as <- <-.
  - (* increment *)
    destruct t; [done|]. unfold steps_by_one. unfold add_number, the_one, add_int in Hact.
    rewrite decide_False in Hact by done.
    destruct (ks !! k) as [[]|] eqn:Hv; cbn in Hact; injection Hact as <- <-; cbn in Hm'; done.
  - intros Hne. destruct l as [|k0 l]; [done|]. injection Hact as <- <-. cbn [meets] in Hm'.
    change (has_kind ks t k0 && forallb (has_kind ks t) l) with (forallb (has_kind ks t) (k0 :: l)) in Hm'.
    split.
    + intros Ha. rewrite forallb_true in Hm'; [done|]. intros k Hin'. unfold has_kind.
      destruct (Ha k Hin') as (v & -> & Hkd). by apply bool_decide_eq_true.
    + intros k Hin' Hn. rewrite (forallb_false _ _ k) in Hm'; [done|done|]. unfold has_kind.
      destruct (ks !! k) as [v|]; [|done]. apply bool_decide_eq_false. by apply Hn.
  - intros v Hv. rewrite Hv in Hact. by injection Hact as <- <-.
  - intros m Hv. rewrite Hv in Hact. by injection Hact as <- <-.
  - (* length *)
    destruct t as [t|].
    + intros v Hv Hkd. rewrite Hv in Hact.
      destruct t; try (injection Hact as <- <-; by eapply Hfail);
        (destruct (decide _) as [[?|Heq]|] in Hact; [done|congruence|
           injection Hact as <- <-; by eapply Hfail]).
    + intros v Hv. rewrite Hv in Hact, Hmis. rewrite decide_True in Hact by auto.
      destruct v; try done; try (injection Hact as <- <-; by eapply Hfail);
        intros n Hn; apply has_size_of in Hn; rewrite Hn in Hact; by injection Hact as <- <-.
  - (* rename *)
    split.
    + intros [w Hw']. rewrite Hw' in Hact. destruct (ks !! a); injection Hact as <- <-;
        (split; [by eapply Hfail|done]).
    + intros v Ha Hb. rewrite Ha, Hb in Hact. by injection Hact as <- <-.
  - by injection Hact as <- <-.
  - intros v Hv _. rewrite Hv in Hact. by injection Hact as <- <-.
  - by injection Hact as <- <-.
  - (* append *)
    destruct (ks !! k) as [old|] eqn:Hv; [|done]. split; [done|]. intros p ->.
    destruct (joined old v); injection Hact as <- <-; cbn in Hm'; [|done].
    injection Hm' as ->. eexists. split; [done|]. apply lookup_insert.
Qed.

(** Where the documentation is wrong: what happens instead. *)
Lemma c105_misdescribed h e c :
  (lenN h + 1 < 2 ^ 63)%N -> all_within (h ++ [(e, c)]) ideal_new -> refused c = None ->
  let s := (mem_calls h store_new).1 in
  let '(s', r) := mem_call e s c in
  misdescribed (st_keys s) c = true ->
  match c with
  | KAppend k v | KAppendTyped k v => r = ROk (RpValue v) /\ st_keys s' = <[k := v]> (st_keys s)
  | KIncrement _ _ | KDecrement _ _ =>
    r = RErr (CERunningCommand EKeyTypeDifferent) /\ st_keys s' = st_keys s
  | KLength k _ => forall v n, st_keys s !! k = Some v -> has_size v n -> r = ROk (RpInt (Z.of_N n))
  | _ => False
  end /\ ~ as_documented (st_keys s) c r (st_keys s').
Proof.
  intros Hl Hw Href. destruct (call_after h e c Hl Hw) as (Hks & Hin & Hreg & Hall & Hm & Hk & _).
  cbn zeta. rewrite Hks. set (i := (map_calls h ideal_new).1) in *. set (ks := i_keys i) in *.
  destruct (mem_call e _ c) as [s' r]. cbn [fst snd] in Hm, Hk. intros Hmis.
  unfold map_call in Hm, Hk. rewrite Href in Hm, Hk. fold ks in Hm, Hk.
  destruct (act (i_ok i) (i_err i) c ks) as [ks' x] eqn:Hact.
  assert (Hk' : st_keys s' = ks') by (by destruct x). rewrite Hk'. clear Hk.
  assert (Hm' : meets r x) by (by destruct x). clear Hm.
  destruct c as [k v|k t|k v|k|b|l|k|k t|k v|t l|k|k|k t|a b|k v| |k t|k v|k v|k n|k y|k n|k y];
    cbn [act as_documented misdescribed] in *; try done.
  - apply bool_decide_eq_true in Hmis. rewrite Hmis in Hact. injection Hact as <- <-. cbn in Hm'.
    split; [done|]. intros [[err Her] _]; [done|]. by subst r.
  - destruct t; [done|]. destruct (ks !! k) as [[]|] eqn:Hv; try done.
    unfold add_number, the_one, add_int in Hact. rewrite decide_False, Hv in Hact by done.
    cbn in Hact. injection Hact as <- <-. cbn in Hm'. split; [done|]. unfold steps_by_one.
    rewrite Hv, Hm'. by intros [? _].
  - destruct t; [done|]. destruct (ks !! k) as [[]|] eqn:Hv; try done.
    unfold add_number, the_one, add_int in Hact. rewrite decide_False, Hv in Hact by done.
    cbn in Hact. injection Hact as <- <-. cbn in Hm'. split; [done|]. unfold steps_by_one.
    rewrite Hv, Hm'. by intros [? _].
  - destruct t; [done|]. destruct (ks !! k) as [v|] eqn:Hv; [|done]. rewrite decide_True in Hact by auto.
    split.
    + intros v' n [= <-] Hn%has_size_of. rewrite Hn in Hact. by injection Hact as <- <-.
    + intros H. specialize (H v eq_refl).
      destruct v; try done; injection Hact as <- <-; cbn in Hm'; destruct H as [er Her]; congruence.
  - apply bool_decide_eq_true in Hmis. rewrite Hmis in Hact. injection Hact as <- <-. cbn in Hm'.
    split; [done|]. intros [[err Her] _]; [done|]. by subst r.
Qed.
