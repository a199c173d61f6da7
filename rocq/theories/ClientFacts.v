(** The memory client against the map (C42, C43). *)
From Coq Require Import String.
From Verif Require Import Bytes Utf8 Float64 Value CommandId Request Response RespContext
  Metrics Prog Commands EngineSpec WireSpec RequestSpec BytesFacts RequestFacts RequestProps
  ResponseFacts FloatFacts ProgFacts CommandFacts HistorySpec EngineFacts EngineProps
  HistoryFacts Client ClientSpec.
From stdpp Require Import gmap list.
From Coq Require Import NArith ZArith SpecFloat.
From Coq Require Import ZifyBool ZifyNat ZifyN Lia.

(** ** Building *)

Lemma put_bytes_built e c kt l a :
  a <> [] -> (lenN l < 255)%N ->
  put_bytes e (built c kt l) a = ROk (built c kt (l ++ [a])).
Proof. intros. unfold put_bytes. by rewrite builder_bytes_built. Qed.

Lemma put_value_built e c kt l v :
  env_ok e -> (lenN l + value_arity v <= 255)%N -> value_empty v = false ->
  put_value e (built c kt l) v = ROk (built c kt (l ++ value_args e v)).
Proof. intros. unfold put_value. by rewrite builder_value_fits. Qed.

Lemma is_empty_false b : is_empty b = false -> b <> [].
Proof. by intros H ->. Qed.

Lemma is_empty_true b : is_empty b = true -> b = [].
Proof. unfold is_empty. destruct b; [done|]. rewrite lenN_cons. lia. Qed.

Lemma put_all_built e c kt l' : forall l,
  existsb is_empty l' = false -> (lenN l + lenN l' <= 255)%N ->
  put_all e (built c kt l) l' = ROk (built c kt (l ++ l')).
Proof.
  induction l' as [|a l' IH]; intros l He Hl; cbn [put_all].
  - by rewrite app_nil_r.
  - cbn [existsb] in He. apply orb_false_iff in He as [Ha He]. rewrite lenN_cons in Hl.
    rewrite put_bytes_built by (by apply is_empty_false || lia). cbn [rbind].
    rewrite IH; [by rewrite <-app_assoc|done|rewrite lenN_app; change (lenN [a]) with 1%N; lia].
Qed.

(** ... or an empty argument is met first. *)
Lemma put_all_empty e c kt l' : forall l,
  existsb is_empty l' = true -> (lenN l + lenN l' <= 255)%N ->
  put_all e (built c kt l) l' = RErr (CEBuildingRequest BEArgumentEmpty).
Proof.
  induction l' as [|a l' IH]; intros l He Hl; [done|]. cbn [put_all]. rewrite lenN_cons in Hl.
  destruct (is_empty a) eqn:Ha.
  - apply is_empty_true in Ha as ->. done.
  - rewrite put_bytes_built by (by apply is_empty_false || lia). cbn [rbind].
    apply IH; [|rewrite lenN_app; change (lenN [a]) with 1%N; lia].
    cbn [existsb] in He. by rewrite Ha in He.
Qed.

Lemma put_bytes_empty e b : put_bytes e b [] = RErr (CEBuildingRequest BEArgumentEmpty).
Proof. done. Qed.

Lemma put_value_empty e c kt k v :
  env_ok e -> is_simple c = false -> k <> [] -> (1 + value_arity v <= 255)%N -> value_empty v = true ->
  put_value e (built c kt [k]) v = RErr (CEBuildingRequest BEValueEmpty).
Proof.
  intros He Hs Hk Ha Hv.
  destruct (c04_refusals e c kt [k] v (built c kt [k])) as [H _]; try done.
  - by repeat constructor.
  - cbn [map]. rewrite builder_new_kt_built by done. cbn [builder_chain builder_do].
    rewrite builder_bytes_built by done. done.
  - destruct (H ltac:(change (lenN [k]) with 1%N; lia) Hv) as [b' Hb].
    unfold put_value. by rewrite Hb.
Qed.

Lemma built_asks c kt l : asks (into_request (built c kt l)) c kt l.
Proof. split; [done|]. split; [done|]. apply built_args. Qed.

Lemma value_args_spells e v : env_ok e -> spells v (value_args e v).
Proof.
  intros [Hm Hs]. destruct v; cbn; try done.
  exists (map_iter e m). by split.
Qed.

Lemma value_args_nonempty e v : env_ok e -> value_empty v = false -> v <> VList [] ->
  value_args e v <> [].
Proof.
  intros [Hm Hs] Hv Hl. destruct v as [x|bs|n|z|items|m|st|str]; cbn in *; try done.
  - by intros ->.
  - intros H. assert (Hn : map_iter e m = []).
    { destruct (map_iter e m) as [|[a b] l]; [done|]. done. }
    specialize (Hm m). rewrite Hn in Hm. apply Permutation_nil in Hm.
    apply map_to_list_empty_iff in Hm as ->. done.
  - intros H. specialize (Hs st). rewrite H in Hs. apply Permutation_nil in Hs.
    unfold size, set_size in Hv. cbn in Hv. by rewrite Hs in Hv.
Qed.

(** ** Sending *)

Lemma sound_decodable dbg v : sound v -> undecodable_empty dbg (RValue v) = false.
Proof.
  intros (_ & _ & H1 & H2 & H3). destruct v as [x|bs|n|z|items|m|st|str]; try done; cbn.
  - by destruct bs.
  - by destruct items.
  - destruct (Nat.eqb_spec (size st) 0) as [H|]; [|done]. exfalso. apply H3.
    f_equal. apply leibniz_equiv. by apply size_empty_inv.
Qed.

Lemma counts_room s ok err ses :
  counts_are s ok err ses -> (ok + err + ses < 2 ^ 63)%N -> room s.
Proof.
  intros (H1 & H2 & H3 & H4) Hb m.
  assert (count s MSessionsEnded = 0%N) by (unfold count; by rewrite H4).
  pose proof (counter_is_count _ _ _ H1). pose proof (counter_is_count _ _ _ H2).
  pose proof (counter_is_count _ _ _ H3).
  destruct m; lia.
Qed.

Lemma responds_sound e s b v :
  sound v -> responds e [] v (dispatch e s (into_request b) []).2 ->
  exists s', mem_send e s b = (s', ROk v) /\ s' = (dispatch e s (into_request b) []).1 /\
    is_ok (dispatch e s (into_request b) []).2 = true /\
    is_err (dispatch e s (into_request b) []).2 = false.
Proof.
  intros Hv Hr. unfold mem_send. destruct (dispatch e s (into_request b) []) as [s' r].
  cbn [fst snd] in *. exists s'. pose proof Hv as (Hwf & Hl & _).
  destruct Hr as [(msg & -> & Hf)|(_ & Hn & _)]; [|done].
  cbn [app] in *. rewrite (Hf Hl (debug e) Hwf (sound_decodable _ _ Hv)). done.
Qed.

Definition sends_as (e : env) (s : store) (b : builder) (sp : keyspace * answer) (ok err : N)
  : Prop :=
  match sp.2 with
  | AVal v => sound v -> exists s', mem_send e s b = (s', ROk v) /\ st_keys s' = sp.1 /\
      counts_are s' (ok + 1) err 0
  | AKeys m => exists l, l ≡ₚ elements m /\
      (sound (VList l) -> exists s', mem_send e s b = (s', ROk (VList l)) /\ st_keys s' = sp.1 /\
      counts_are s' (ok + 1) err 0)
  | AErr er => exists s', mem_send e s b = (s', RErr (CERunningCommand er)) /\ st_keys s' = sp.1 /\
      counts_are s' ok (err + 1) 0
  | ACrash => (mem_send e s b).2 = RPanic
  end.

Lemma mem_send_spec e s b c kt l ok err :
  env_ok e -> asks (into_request b) c kt l -> counts_are s ok err 0 -> (ok + err < 2 ^ 63)%N ->
  sends_as e s b (spec_command (debug e) (engine_stats s) c kt l (st_keys s)) ok err.
Proof.
  intros He (Hc & Hk & Hq) Hn Hb.
  assert (Hr : room s) by (eapply counts_room; [done|lia]).
  destruct (dispatch_answered e s (into_request b) [] l He Hq Hr) as [Ha Hks].
  pose proof (counts_dispatch e s (into_request b) [] ok err 0 Hn ltac:(lia)) as Hcn.
  cbn zeta in *. rewrite Hc, Hk in Ha, Hks.
  unfold sends_as. destruct (spec_command _ _ _ _ _ _) as [ks a]. cbn [fst snd] in *.
  destruct a as [v|m|er|]; cbn [answered] in Ha.
  - intros Hv. destruct (responds_sound e s b v Hv Ha) as (s' & Hs & -> & Ho & Hne).
    rewrite Ho, Hne in Hcn. eexists. split; [done|]. split.
    + apply Hks. intros Hp. by rewrite Hp in Ho.
    + by rewrite N.add_0_r in Hcn.
  - destruct Ha as (x & Hx & Ha). exists x. split; [done|]. intros Hv.
    destruct (responds_sound e s b (VList x) Hv Ha) as (s' & Hs & -> & Ho & Hne).
    rewrite Ho, Hne in Hcn. eexists. split; [done|]. split.
    + apply Hks. intros Hp. by rewrite Hp in Ho.
    + by rewrite N.add_0_r in Hcn.
  - unfold mem_send. destruct (dispatch e s (into_request b) []) as [s' r]. cbn [fst snd] in *.
    subst r. exists s'. split; [done|]. split; [by apply Hks|]. cbn in Hcn.
    by rewrite N.add_0_r in Hcn.
  - unfold mem_send. destruct (dispatch e s (into_request b) []) as [s' r]. cbn [fst snd] in *.
    by subst r.
Qed.

(** ** One call *)

Definition agrees (out : store * client_res reply) (p : ideal * expected) : Prop :=
  meets out.2 p.2 /\ st_keys out.1 = i_keys p.1 /\ counts_are out.1 (i_ok p.1) (i_err p.1) 0.

(** The specification's answer [a], taken apart by [f] and wrapped by [g], is what is expected. *)
Definition ties {A} (f : value -> client_res A) (g : A -> reply) (a : answer) (x : expected) : Prop :=
  match a with
  | AVal v => sound v /\ exists p, x = Returns p /\ rbind (f v) (fun a => ROk (g a)) = ROk p
  | AErr er => x = fails er
  | AKeys m => x = ReturnsEach m /\
      forall l, l ≡ₚ elements m ->
        sound (VList l) /\ rbind (f (VList l)) (fun a => ROk (g a)) = ROk (RpItems l)
  | ACrash => False
  end.

Lemma method_agrees {A} e s b (f : value -> client_res A) g c kt l call i :
  env_ok e -> asks (into_request b) c kt l -> st_keys s = i_keys i ->
  counts_are s (i_ok i) (i_err i) 0 -> (i_ok i + i_err i < 2 ^ 63)%N ->
  refused call = None ->
  let sp := spec_command (debug e) (engine_stats s) c kt l (i_keys i) in
  let ac := act (i_ok i) (i_err i) call (i_keys i) in
  sp.1 = ac.1 -> ties f g sp.2 ac.2 ->
  agrees (with_reply g (mem_method e s (ROk b) f)) (map_call call i).
Proof.
  intros He Hq Hks Hc Hb Hrf sp ac H1 H2.
  pose proof (mem_send_spec e s b c kt l _ _ He Hq Hc Hb) as Hs. rewrite Hks in Hs.
  unfold map_call. rewrite Hrf. fold sp in Hs. fold ac.
  unfold sends_as in Hs. destruct sp as [ks a], ac as [ks' x]. cbn [fst snd] in *. subst ks'.
  unfold with_reply, mem_method. destruct a as [v|m|er|]; cbn [ties] in H2.
  - destruct H2 as (Hv & p & -> & Hp). destruct (Hs Hv) as (s' & -> & Hk & Hn).
    split_and!; [exact Hp|done|done].
  - destruct H2 as (-> & Hl). destruct Hs as (x & Hx & Hs). destruct (Hl x Hx) as [Hv Hp].
    destruct (Hs Hv) as (s' & -> & Hk & Hn).
    split_and!; [exists x; by split|done|done].
  - subst x. destruct Hs as (s' & -> & Hk & Hn). split_and!; done.
  - done.
Qed.

Lemma refused_agrees A e s (f : value -> client_res A) g b err call i :
  st_keys s = i_keys i -> counts_are s (i_ok i) (i_err i) 0 ->
  refused call = Some err -> b = RErr err ->
  agrees (with_reply g (mem_method e s b f)) (map_call call i).
Proof. intros Hks Hc Hr ->. unfold map_call. rewrite Hr. by split_and!. Qed.

Lemma then_kind_method e s b f t :
  then_kind t (mem_method e s b f) = mem_method e s b (fun v => rbind (f v) (of_kind t)).
Proof.
  unfold then_kind, mem_method. destruct b as [b|err| |]; [|done..].
  destruct (mem_send e s b) as [s' [v|err| |]]; done.
Qed.

(** Sound answers. *)
Lemma sound_bool b : sound (VBoolean b).
Proof. by split_and!. Qed.
Lemma sound_int z : i64_range z -> sound (VInteger z).
Proof. intros H. by split_and!. Qed.
Lemma sound_float n : (n < u64_mod)%N -> sound (VFloat n).
Proof. intros H. by split_and!. Qed.
Lemma sound_key k : k <> [] -> (lenN k < 2 ^ 32 - 16)%N -> sound (VBytes k).
Proof.
  intros H1 H2. split_and!; try done; [|by intros [= ->]]. cbn. unfold u32_mod. lia.
Qed.
Lemma sound_echo k : (lenN k < 2 ^ 32 - 16)%N -> sound (VList [k]).
Proof.
  intros H. split_and!; try done. cbn. unfold payload_list. cbn [map concat].
  rewrite app_nil_r, !lenN_app, !be_enc_lenN. unfold u32_mod, u16_mod.
  change (lenN [k]) with 1%N. lia.
Qed.
Lemma sound_stats s : sound (VMap (engine_stats s)).
Proof. split_and!; try done. apply stats_fit. Qed.

Lemma sizes_fit v n : sound v -> size_of v = Some n -> (n < 2 ^ 32)%N.
Proof.
  intros (_ & Hl & _) Hn. destruct v as [x|bs|y|z|items|m|st|str]; try done; injection Hn as <-;
    cbn in Hl; unfold u32_mod, u16_mod in Hl; try lia.
  pose proof (filter_length (fun b => starts_char b = true) str). unfold lenN in *. lia.
Qed.

(** The keys of a map that fits, fit. *)
Lemma keys_fit (m : gmap bytes bytes) l :
  sound (VMap m) -> m <> ∅ -> l ≡ₚ elements (dom m : gset bytes) -> sound (VList l).
Proof.
  intros (_ & (H1 & H2 & H3) & _) Hm Hl.
  assert (Hp : l ≡ₚ (map_to_list m).*1).
  { rewrite Hl. apply NoDup_Permutation; [apply NoDup_elements|apply NoDup_fst_map_to_list|].
    intros k. rewrite elem_of_elements, elem_of_dom, elem_of_list_fmap. split.
    - intros [v Hv]. exists (k, v). split; [done|]. by apply elem_of_map_to_list.
    - intros ([k' v] & -> & Hv). apply elem_of_map_to_list in Hv. by exists v. }
  split_and!; try done; [|].
  - cbn. assert (Hs : lenN l = N.of_nat (size m)).
    { unfold lenN. rewrite Hp, fmap_length. done. }
    split; [by rewrite Hs|].
    unfold payload_list, payload_map in *. rewrite lenN_app, be_enc_lenN in *.
    assert (Hsum : forall l1 l2 : list bytes, l1 ≡ₚ l2 ->
      lenN (concat (map (fun x => be_enc 4 (lenN x) ++ x) l1))
      = lenN (concat (map (fun x => be_enc 4 (lenN x) ++ x) l2))).
    { intros l1 l2 Hp'. unfold lenN. by rewrite Hp'. }
    rewrite (Hsum _ _ Hp).
    enough (forall x : list (bytes * bytes),
      (lenN (concat (map (fun x => be_enc 4 (lenN x) ++ x) x.*1))
      <= lenN (concat (map (fun kv => be_enc 1 (lenN kv.1) ++ kv.1
              ++ be_enc 4 (lenN kv.2) ++ kv.2) x)))%N) as Hx.
    { specialize (Hx (map_to_list m)). lia. }
    induction x as [|[k v] x IH]; [done|]. rewrite fmap_cons. cbn [map concat fst snd].
    rewrite !lenN_app, !be_enc_lenN. lia.
  - intros [= ->]. apply Permutation_nil in Hp. destruct (map_to_list m) eqn:Hml; [|done].
    by apply map_to_list_empty_iff in Hml.
Qed.

Lemma sub_one f : f64_add f f64_minus_one = f64_sub f f64_one.
Proof.
  unfold f64_add, f64_sub.
  change (f64_of_bits f64_minus_one) with (S754_finite true 4503599627370496 (-52)).
  change (f64_of_bits f64_one) with (S754_finite false 4503599627370496 (-52)).
  by destruct (f64_of_bits f).
Qed.

Lemma arg_int_enc n : i64_range n -> arg_int (i64_enc n) = Some n.
Proof.
  intros H. unfold arg_int. rewrite i64_enc_len. cbn [Nat.leb].
  rewrite take_ge by (by rewrite i64_enc_len). by rewrite i64_dec_enc.
Qed.

Section call.
  Context (e : env) (s : store) (i : ideal).
  Context (He : env_ok e) (Hks : st_keys s = i_keys i) (Hc : counts_are s (i_ok i) (i_err i) 0)
    (Hb : (i_ok i + i_err i < 2 ^ 63)%N) (Hall : all_sound (i_keys i)).

  Notation ks := (i_keys i).

  (** Adding an integer. *)
  Lemma add_ties k n :
    ordinary k -> i64_range n ->
    (forall z, default (VInteger 0) (ks !! k) = VInteger z -> i64_range (z + n)) ->
    (spec_add_int (debug e) ks k n).1 = (add_int k n ks).1 /\
    ties (fun v => or_panic (a_number v)) RpValue (spec_add_int (debug e) ks k n).2
      (add_int k n ks).2 /\
    ties (fun v => rbind (or_panic (a_number v)) (of_kind KTInteger)) RpValue
      (spec_add_int (debug e) ks k n).2 (add_int k n ks).2.
  Proof.
    intros Ho Hn Hz. unfold spec_add_int, add_int. rewrite ordinary_ok by done.
    destruct (default (VInteger 0) (ks !! k)) eqn:Hd; try done.
    rewrite decide_True by (by apply Hz). cbn. split; [done|].
    assert (sound (VInteger (z + n))) by (by apply sound_int, Hz).
    split; (split; [done|]); eexists; split; try done.
  Qed.

  Lemma dec_ties k n :
    ordinary k -> i64_range n -> i64_range (- n) ->
    (forall z, default (VInteger 0) (ks !! k) = VInteger z -> i64_range (z - n)) ->
    (spec_decrement_by (debug e) ks k (i64_enc n)).1 = (add_int k (- n) ks).1 /\
    ties (fun v => or_panic (a_number v)) RpValue (spec_decrement_by (debug e) ks k (i64_enc n)).2
      (add_int k (- n) ks).2 /\
    ties (fun v => rbind (or_panic (a_number v)) (of_kind KTInteger)) RpValue
      (spec_decrement_by (debug e) ks k (i64_enc n)).2 (add_int k (- n) ks).2.
  Proof.
    intros Ho Hn Hn' Hz. unfold spec_decrement_by. rewrite arg_int_enc by done.
    rewrite decide_True by done. apply add_ties; [done|done|]. intros z Hd.
    specialize (Hz z Hd). by rewrite <-Z.add_opp_r in Hz.
  Qed.

  (** A float step on an existing key. *)
  Lemma float_ties k x v sign :
    ordinary k -> ks !! k = Some v -> (sign = 1%Z /\ x = f64_one) \/ (sign = (-1)%Z /\ x = f64_minus_one) ->
    (spec_add_float (debug e) ks k x).1 = (add_float k sign f64_one ks).1 /\
    ties (fun v => or_panic (a_number v)) RpValue (spec_add_float (debug e) ks k x).2
      (add_float k sign f64_one ks).2.
  Proof.
    intros Ho Hk Hx. unfold spec_add_float, add_float. rewrite ordinary_ok, Hk by done.
    cbn [default from_option id].
    destruct v; try done. cbn [fst snd].
    assert (Hsum : f64_add bits x = if (sign <? 0)%Z then f64_sub bits f64_one else f64_add bits f64_one).
    { destruct Hx as [[-> ->]|[-> ->]]; cbn [Z.ltb Z.compare]; [done|]. apply sub_one. }
    rewrite <-Hsum. split; [done|]. cbn [ties]. split; [apply sound_float, f64_add_lt|].
    eexists. split; done.
  Qed.

  Lemma append_agrees k v f :
    (f = ROk \/ f = of_kind (kind v)) ->
    forall call, call = KAppend k v \/ call = KAppendTyped k v -> within call i ->
    agrees (with_reply RpValue (mem_method e s
      (rbind (put_bytes e (builder_new_kt CAppend (Some (kind v))) k) (fun b =>
       put_appended e (CEKeyTypeUnsupported (kind v) (Some v)) b v)) f)) (map_call call i).
  Proof.
    intros Hf call Hcall (Hn & Hnm & Hrs & Hcv & _ & Hnew).
    assert (Hn' : (1 + value_arity v <= 255)%N) by (by destruct Hcall as [->| ->]).
    assert (Hwf : value_wf v) by (apply Hcv; by destruct Hcall as [->| ->]).
    assert (Hres : ~ reserved k).
    { destruct Hcall as [->| ->]; specialize (Hrs eq_refl); by apply Forall_inv in Hrs. }
    assert (Href : refused call = refused (KAppend k v)) by (by destruct Hcall as [->| ->]).
    destruct (refused call) as [err|] eqn:Hr.
    { eapply refused_agrees; try done. symmetry in Href. cbn in Href.
      destruct (is_empty k) eqn:Hk.
      { apply is_empty_true in Hk as ->. by injection Href as <-. }
      rewrite builder_new_kt_built, put_bytes_built by (try done; by apply is_empty_false).
      cbn [rbind app put_appended].
      destruct v as [x|bs|y|z|items|m|st|str]; try (by injection Href as <-); cbn [put_appended].
      - destruct (is_empty bs) eqn:Hx; [|done]. apply is_empty_true in Hx as ->. by injection Href as <-.
      - destruct (existsb is_empty items) eqn:Hx; [|done]. injection Href as <-.
        apply put_all_empty; [done|]. cbn in Hn'. change (lenN [k]) with 1%N. lia.
      - destruct (is_empty str) eqn:Hx; [|done]. apply is_empty_true in Hx as ->. by injection Href as <-. }
    assert (Hk : k <> []).
    { symmetry in Href. cbn in Href. destruct (is_empty k) eqn:Hk; [done|]. by apply is_empty_false. }
    assert (Ho : ordinary k) by (by split).
    rewrite builder_new_kt_built, put_bytes_built by done. cbn [rbind app].
    assert (exists l, put_appended e (CEKeyTypeUnsupported (kind v) (Some v))
        (built CAppend (Some (kind v)) [k]) v = ROk (built CAppend (Some (kind v)) (k :: l)) /\
      (kind v = KTBytes /\ l = [match v with VBytes b => b | _ => [] end] \/
       kind v = KTString /\ l = [match v with VString b => b | _ => [] end] \/
       kind v = KTList /\ v = VList l)) as (l & Hl & Hkind).
    { symmetry in Href. cbn in Href.
      destruct (is_empty k) eqn:Hk'; [by apply is_empty_true in Hk'|].
      destruct v as [x|bs|y|z|items|m|st|str]; try done; cbn [put_appended].
      - destruct (is_empty bs) eqn:Hx; [done|]. exists [bs]. split; [|by auto].
        rewrite put_bytes_built by (try done; by apply is_empty_false). done.
      - destruct (existsb is_empty items) eqn:Hx; [done|]. exists items. split; [|by auto].
        cbn in Hn'. rewrite put_all_built; [done|done|]. change (lenN [k]) with 1%N. lia.
      - destruct (is_empty str) eqn:Hx; [done|]. exists [str]. split; [|by auto].
        rewrite put_bytes_built by (try done; by apply is_empty_false). done. }
    rewrite Hl.
    set (ac := act (i_ok i) (i_err i) call ks).
    assert (Hac : ac = act (i_ok i) (i_err i) (KAppend k v) ks)
      by (unfold ac; by destruct Hcall as [->| ->]).
    assert (Hnew' : all_sound ac.1).
    { unfold map_call in Hnew. rewrite Hr in Hnew. fold ac in Hnew. destruct ac as [ks' x].
      by destruct x. }
    assert (Hput : forall new, kind new = kind v -> all_sound (<[k := new]> ks) ->
      ties f RpValue (AVal new) (Returns (RpValue new))).
    { intros new Hkn Hs. split; [by apply (Hs k); rewrite lookup_insert|]. exists (RpValue new).
      split; [done|]. destruct Hf as [->| ->]; [done|]. unfold of_kind.
      by rewrite decide_True. }
    eapply method_agrees; [done|apply built_asks|done|done|done|done|..]; fold ac; rewrite Hac;
      rewrite Hac in Hnew'; cbn [spec_command act] in *; unfold spec_append in *;
      destruct v as [x|bs|y|z|items|m|st|str]; cbn [kind type_or] in *;
      destruct Hkind as [[Hkd ->]|[[Hkd ->]|[Hkd Hv]]]; try done;
      try (injection Hv as ->); cbn [concat]; rewrite ?app_nil_r, ordinary_ok by done;
      (destruct (ks !! k) as [[x|bs'|y|z|items'|m|st|str']|] eqn:Hlk; cbn [default from_option id joined fst snd] in *; try done);
      try (by apply Hput);
      rewrite filter_cons_True, filter_nil, ?app_nil_r in * by done; cbn [concat]; rewrite ?app_nil_r; try done; try (by apply Hput).
  Qed.

  Lemma set_agrees k v f :
    (f = ROk \/ f = of_kind (kind v)) ->
    forall call, call = KSet k v \/ call = KSetTyped k v -> within call i ->
    agrees (with_reply RpValue (mem_method e s
      (rbind (put_bytes e (builder_new_kt CSet (Some (kind v))) k) (fun b => put_value e b v)) f))
      (map_call call i).
  Proof.
    intros Hf call Hcall (Hn & Hnm & Hrs & Hcv & _ & Hnew).
    assert (Hn' : (1 + value_arity v <= 255)%N) by (by destruct Hcall as [->| ->]).
    assert (Hwf : value_wf v) by (apply Hcv; by destruct Hcall as [->| ->]).
    assert (Hres : ~ reserved k).
    { destruct Hcall as [->| ->]; specialize (Hrs eq_refl); by apply Forall_inv in Hrs. }
    assert (Href : refused call = refused (KSet k v)) by (by destruct Hcall as [->| ->]).
    cbn in Href. destruct (is_empty k) eqn:Hk.
    { eapply refused_agrees; [done|done|done|]. apply is_empty_true in Hk as ->. done. }
    apply is_empty_false in Hk.
    rewrite builder_new_kt_built, put_bytes_built by done. cbn [rbind app].
    destruct (value_empty v) eqn:Hv.
    { eapply refused_agrees; [done|done|done|]. by apply put_value_empty. }
    rewrite put_value_built by done. cbn [app].
    assert (Ho : ordinary k) by (by split).
    assert (Hact : act (i_ok i) (i_err i) call ks = (<[k := v]> ks, Returns (RpValue v)))
      by (by destruct Hcall as [->| ->]).
    unfold map_call in Hnew. rewrite Href, Hact in Hnew. cbn [fst i_keys] in Hnew.
    assert (Hsv : sound v) by (apply (Hnew k); by rewrite lookup_insert).
    assert (Hne : value_args e v <> []).
    { apply value_args_nonempty; try done. by destruct Hsv as (_ & _ & _ & ? & _). }
    assert (Hsp : spec_command (debug e) (engine_stats s) CSet (Some (kind v)) (k :: value_args e v) ks
      = (<[k := v]> ks, AVal v)).
    { destruct (value_args e v) as [|a r] eqn:Hva; [done|]. cbn [spec_command]. unfold spec_set.
      cbn [type_or]. rewrite <-Hva, spells_value_of, ordinary_ok; try done.
      - by apply value_args_spells.
      - by rewrite Hva. }
    eapply method_agrees; [done|apply built_asks|done|done|done|done|..]; rewrite Hact, Hsp; [done|].
    split; [done|]. eexists. split; [done|]. destruct Hf as [->| ->]; [done|].
    unfold of_kind. by rewrite decide_True.
  Qed.

  (** Adding a number that is not a float. *)
  Lemma number_agrees (up : bool) k v f :
    (f = (fun v => or_panic (a_number v)) \/
     (is_integer v = true /\ f = (fun v => rbind (or_panic (a_number v)) (of_kind KTInteger)))) ->
    forall call,
      (if up then call = KIncrementBy k v \/ (exists n, call = KIncrementInt k n /\ v = VInteger (default 1%Z n))
       else call = KDecrementBy k v \/ (exists n, call = KDecrementInt k n /\ v = VInteger (default 1%Z n))) ->
    is_float v = false -> within call i ->
    agrees (with_reply RpValue (mem_method e s
      (rbind (put_bytes e (builder_new_kt (if up then CIncrementBy else CDecrementBy) (Some (kind v))) k)
      (fun b => if not_number v then RErr (CEKeyTypeUnsupported (kind v) (Some v)) else put_value e b v))
      f)) (map_call call i).
  Proof.
    intros Hf call Hcall Hfl (Hn & Hnm & Hrs & Hcv & Hir & Hnew).
    assert (Hwf : value_wf v).
    { apply Hcv. destruct up; destruct Hcall as [->|(n & -> & ->)]; done. }
    assert (Hres : ~ reserved k).
    { destruct up; destruct Hcall as [->|(n & -> & ->)]; specialize (Hrs eq_refl);
        by apply Forall_inv in Hrs. }
    assert (Href : refused call = refused (KIncrementBy k v)).
    { destruct up; destruct Hcall as [->|(n & -> & ->)]; done. }
    cbn in Href. destruct (is_empty k) eqn:Hk.
    { eapply refused_agrees; [done|done|done|]. apply is_empty_true in Hk as ->. done. }
    apply is_empty_false in Hk.
    rewrite builder_new_kt_built, put_bytes_built by (by destruct up). cbn [rbind app].
    destruct (not_number v) eqn:Hv.
    { eapply refused_agrees; [done|done|done|]. done. }
    destruct v as [| | |n| | | |]; try done. rewrite put_value_built by done. cbn [app].
    assert (Ho : ordinary k) by (by split). cbn [kind value_args] in *.
    assert (Hf' : forall a x,
      ties (fun v => or_panic (a_number v)) RpValue a x ->
      ties (fun v => rbind (or_panic (a_number v)) (of_kind KTInteger)) RpValue a x ->
      ties f RpValue a x).
    { intros a x H1 H2. by destruct Hf as [->|[_ ->]]. }
    destruct up.
    - assert (Hact : act (i_ok i) (i_err i) call ks = add_int k n ks).
      { destruct Hcall as [->|(m & -> & Hm)]; cbn [act add_number]; [by rewrite Z.mul_1_l|].
        injection Hm as <-. by rewrite Z.mul_1_l. }
      assert (Hadds : adds call = Some (k, n)).
      { destruct Hcall as [->|(m & -> & Hm)]; [done|]. cbn. by injection Hm as <-. }
      destruct (Hir k n Hadds) as [Hrn Hrz].
      destruct (add_ties k n Ho Hrn Hrz) as (H1 & H2 & H3).
      eapply method_agrees; [done|apply built_asks|done|done|done|done|..]; rewrite Hact;
        cbn [spec_command]; unfold spec_increment_by; rewrite arg_int_enc by done; [done|].
      by apply Hf'.
    - assert (Hact : act (i_ok i) (i_err i) call ks = add_int k (- n) ks).
      { destruct Hcall as [->|(m & -> & Hm)]; cbn [act add_number].
        - replace (-1 * n)%Z with (- n)%Z by lia. done.
        - injection Hm as <-. replace (-1 * n)%Z with (- n)%Z by lia. done. }
      assert (Hadds : adds call = Some (k, (- n)%Z)).
      { destruct Hcall as [->|(m & -> & Hm)]; [done|]. cbn. by injection Hm as <-. }
      destruct (Hir k _ Hadds) as [Hrn Hrz].
      destruct (dec_ties k n Ho Hwf Hrn) as (H1 & H2 & H3).
      { intros z Hz. rewrite <-Z.add_opp_r. by apply Hrz. }
      eapply method_agrees; [done|apply built_asks|done|done|done|done|..]; rewrite Hact;
        cbn [spec_command]; [done|]. by apply Hf'.
  Qed.

  Lemma step_agrees (up : bool) k t :
    forall call, call = (if up then KIncrement k t else KDecrement k t) ->
    within call i -> regular call ks ->
    agrees (with_reply RpValue (mem_method e s
      (put_bytes e (builder_new_kt (if up then CIncrement else CDecrement) t) k)
      (fun v => or_panic (a_number v)))) (map_call call i).
  Proof.
    intros call Hcall (Hn & Hnm & Hrs & Hcv & Hir & Hnew) Hreg.
    assert (Hres : ~ reserved k).
    { destruct up; subst call; specialize (Hrs eq_refl); by apply Forall_inv in Hrs. }
    assert (Href : refused call = refused (KGet k)) by (by destruct up; subst call).
    cbn in Href. destruct (is_empty k) eqn:Hk.
    { eapply refused_agrees; [done|done|done|]. apply is_empty_true in Hk as ->. done. }
    apply is_empty_false in Hk.
    rewrite builder_new_kt_built, put_bytes_built by (by destruct up). cbn [app].
    assert (Ho : ordinary k) by (by split).
    set (sign := (if up then 1 else -1)%Z).
    assert (Hact : act (i_ok i) (i_err i) call ks = add_number k sign (the_one t) ks)
      by (by destruct up; subst call).
    assert (Hadds : adds call = Some (k, sign)) by (by destruct up; subst call).
    eapply method_agrees; [done|apply built_asks|done|done|done|done|..]; rewrite Hact;
      (destruct (decide (t = Some KTFloat)) as [->|Ht];
       [assert (is_Some (ks !! k)) as [v Hv] by (by destruct up; subst call);
        destruct (float_ties k (if up then f64_one else f64_minus_one) v sign Ho Hv) as [H1 H2];
          [by destruct up; auto|];
        unfold the_one; rewrite decide_True by done; cbn [add_number]; by destruct up|]);
      (destruct (Hir k _ Hadds) as [Hrn Hrz]; destruct (add_ties k sign Ho Hrn Hrz) as (H1 & H2 & _);
       assert (Hsp : spec_command (debug e) (engine_stats s) (if up then CIncrement else CDecrement) t [k] ks
         = spec_add_int (debug e) ks k sign) by (destruct up, t as [[]|]; done);
       rewrite Hsp; unfold the_one; rewrite decide_False by done; cbn [add_number];
       rewrite Z.mul_1_r; done).
  Qed.

  (** Calls with one key, no key type and no more. *)
  Lemma key_agrees {A} c kt (f : value -> client_res A) g k call :
    is_simple c = false -> named call = [k] -> refused call = refused (KGet k) ->
    within call i ->
    (k <> [] -> (lenN k < 2 ^ 32 - 16)%N -> (refuses_reserved call = true -> ordinary k) ->
     let sp := spec_command (debug e) (engine_stats s) c kt [k] ks in
     let ac := act (i_ok i) (i_err i) call ks in
     sp.1 = ac.1 /\ ties f g sp.2 ac.2) ->
    agrees (with_reply g (mem_method e s (put_bytes e (builder_new_kt c kt) k) f)) (map_call call i).
  Proof.
    intros Hs Hnm Href (_ & Hlen & Hrs & _) Hsp.
    cbn in Href. destruct (is_empty k) eqn:Hk.
    { eapply refused_agrees; [done|done|done|]. apply is_empty_true in Hk as ->. done. }
    apply is_empty_false in Hk. rewrite Hnm in *. apply Forall_inv in Hlen.
    destruct (Hsp Hk Hlen) as [H1 H2].
    { intros Hr. specialize (Hrs Hr). apply Forall_inv in Hrs. by split. }
    rewrite builder_new_kt_built, put_bytes_built by done. cbn [app].
    eapply method_agrees; [done|apply built_asks|done|done|done|done|done|done].
  Qed.

  Lemma keys_agrees c kt (call : client_call) l v :
    is_simple c = false -> refused call = (if existsb is_empty l then Some (CEBuildingRequest BEArgumentEmpty) else None) ->
    (lenN l <= 255)%N ->
    let sp := spec_command (debug e) (engine_stats s) c kt l ks in
    act (i_ok i) (i_err i) call ks = (match l with [] => (ks, fails EArgumentRetrieval)
                                      | _ => (ks, Returns (RpBool v)) end) ->
    sp = (match l with [] => (ks, AErr EArgumentRetrieval) | _ => (ks, AVal (VBoolean v)) end) ->
    agrees (with_reply RpBool (mem_method e s (put_all e (builder_new_kt c kt) l)
      (fun v => or_panic (as_boolean v)))) (map_call call i).
  Proof.
    intros Hs Href Hl sp Hac Hsp. rewrite builder_new_kt_built by done.
    destruct (existsb is_empty l) eqn:Hx.
    { eapply refused_agrees; [done|done|done|]. apply put_all_empty; [done|]. by rewrite lenN_nil. }
    rewrite put_all_built by (done || by rewrite lenN_nil). cbn [app].
    eapply method_agrees; [done|apply built_asks|done|done|done|done|..]; fold sp; rewrite Hac, Hsp;
      destruct l; try done.
    split; [apply sound_bool|]. eexists. split; done.
  Qed.

  Lemma stats_agrees : agrees (mem_call e s KStats) (map_call KStats i).
  Proof.
    cbn [mem_call]. unfold mem_stats.
    eapply (method_agrees e s (builder_new CStats) _ _ CStats None []); try done.
    { split; [done|]. split; [done|]. by apply req_args_nil. }
    cbn [spec_command act snd]. split; [apply sound_stats|]. eexists. split; [done|].
    cbn [as_map or_panic rbind]. f_equal.
    assert (Hst : stats_are (engine_stats s) (i_ok i) (i_err i) 0) by (apply counts_stats; [done|lia]).
    destruct Hst as (H1 & H2 & H3 & H4).
    assert (Hint : forall m n, (n < 2 ^ 63)%N ->
      engine_stats s !! metric_name m = (if (n =? 0)%N then None else Some (i64_enc (Z.of_N n))) ->
      stats_int (engine_stats s) m = Z.of_N n).
    { intros m n Hn Hm. unfold stats_int. rewrite Hm. destruct (N.eqb_spec n 0) as [->|]; [done|].
      unfold lenN. rewrite i64_enc_len. change (N.of_nat 8 =? 8)%N with true.
      apply i64_dec_enc. clear -Hn. unfold i64_range, i64_half. lia. }
    unfold stats_commands_successful, stats_commands_errored, stats_sessions_started,
      stats_sessions_ended.
    rewrite (Hint MCommandsSuccessful (i_ok i)), (Hint MCommandsErrored (i_err i)),
      (Hint MSessionsStarted 0%N), (Hint MSessionsEnded 0%N); try done; try lia.
    destruct (engine_stats s !! metric_name MSessionsEnded) eqn:Hm; [|done].
    specialize (H4 _ (mk_is_Some _ _ Hm)). by destruct H4 as [?|[?|?]].
  Qed.

  Lemma call_agrees c : within c i -> regular c ks -> agrees (mem_call e s c) (map_call c i).
  Proof.
    intros Hw Hreg. destruct c; try (exfalso; exact Hreg); cbn [mem_call].
    - eapply append_agrees; [by left|by left|done].
    - apply (step_agrees false); done.
    - apply (number_agrees false); [by left|by left| |done]. by destruct v.
    - eapply (key_agrees CDelete None); try done. intros Hk Hl _. cbn. unfold is_present.
      destruct (ks !! k); cbn; [|done]. split; [done|]. split; [by apply sound_key|].
      eexists. split; done.
    - eapply (key_agrees CEcho None); try done. intros Hk Hl _. cbn. split; [done|].
      split; [by apply sound_echo|]. eexists. split; done.
    - destruct Hw as (Hn & _). eapply (keys_agrees CExists None _ keys (forallb (is_present ks) keys));
        try done; by destruct keys.
    - eapply (key_agrees CGet None); try done. intros Hk Hl Ho. cbn. unfold spec_get.
      rewrite ordinary_ok by (by apply Ho). cbn. destruct (ks !! k) as [v|] eqn:Hv; cbn; [|done].
      rewrite ?decide_True by done. cbn.
      split; [done|]. split; [by apply (Hall k)|]. eexists. split; done.
    - apply (step_agrees true); done.
    - apply (number_agrees true); [by left|by left| |done]. by destruct v.
    - destruct Hw as (Hn & _). eapply (keys_agrees CIs (Some t) _ keys (forallb (has_kind ks t) keys));
        try done; by destruct keys.
    - eapply (key_agrees CType None); try done. intros Hk Hl _. cbn.
      destruct (ks !! k) as [v|] eqn:Hv; cbn; [|done].
      split; [done|]. split; [apply sound_int; by destruct v|]. eexists. split; [done|].
      by destruct v.
    - eapply (key_agrees CKeys None); try done. intros Hk Hl Ho. cbn. unfold spec_keys.
      rewrite ordinary_ok by (by apply Ho). cbn. destruct (ks !! k) as [v|] eqn:Hv; cbn; [|done].
      split; [done|]. destruct v; try done. cbn. split; [done|]. intros l' Hl'.
      destruct (Hall k _ Hv) as [Hs Hne]. split; [|done].
      eapply keys_fit; [done| |done]. by intros ->.
    - eapply (key_agrees CLength t); try done. intros Hk Hl Ho. cbn. unfold spec_length.
      rewrite ordinary_ok by (by apply Ho).
      assert (Hsz : forall v n, ks !! k = Some v -> size_of v = Some n -> sound (VInteger (Z.of_N n))).
      { intros v n Hv Hn. destruct (Hall k _ Hv) as [Hs Hne]. apply sound_int.
        pose proof (sizes_fit v n Hs Hn). unfold i64_range, i64_half. lia. }
      assert (Hok : forall v n, ks !! k = Some v -> size_of v = Some n ->
        ties (fun v => or_panic (as_integer v)) RpInt (AVal (VInteger (Z.of_N n)))
          (Returns (RpInt (Z.of_N n)))).
      { intros v n Hv Hn. split; [by eapply Hsz|]. eexists. split; done. }
      destruct t as [t|].
      + destruct t; cbn [type_or]; try done;
          (destruct (ks !! k) as [v|] eqn:Hv; cbn; [|done]; split; [done|]; specialize (Hok v);
           destruct (decide (kind v = _)) as [Hkd|Hkd];
           [rewrite decide_True by (right; congruence); destruct (size_of v) as [n|] eqn:Hn; [by apply Hok|done]
           |rewrite decide_False by (intros [?|[= ?]]; congruence); done]).
      + cbn [type_or]. destruct (ks !! k) as [v|] eqn:Hv; cbn; [|done]. split; [by destruct v|].
        specialize (Hok v).
        destruct v; cbn [kind]; rewrite ?decide_True by (done || by left); try done; by apply Hok.
    - unfold mem_rename, map_call. cbn [refused]. destruct Hw as (_ & Hlen & _).
      apply Forall_cons in Hlen as [_ Hlen]. apply Forall_inv in Hlen.
      destruct (is_empty from) eqn:Hf.
      { apply is_empty_true in Hf as ->. by split_and!. }
      apply is_empty_false in Hf.
      change (builder_new CRename) with (built CRename None []).
      rewrite put_bytes_built by done. cbn [rbind app].
      destruct (is_empty to) eqn:Ht.
      { apply is_empty_true in Ht as ->. by split_and!. }
      pose proof Ht as Ht'. apply is_empty_false in Ht.
      rewrite put_bytes_built by done. cbn [app].
      pose proof (method_agrees e s (built CRename None [from; to]) (fun v => or_panic (as_bytes v)) RpBytes
        CRename None [from; to] (KRename from to) i He (built_asks _ _ _) Hks Hc Hb) as Hm.
      cbn [refused] in Hm. unfold map_call in Hm. cbn [refused] in Hm.
      assert (Hf' : is_empty from = false) by (by destruct from). rewrite Hf', Ht' in Hm.
      apply Hm; [done|..]; cbn [spec_command act]; unfold spec_rename;
        (destruct (ks !! from) as [v|]; [destruct (ks !! to) as [w|]|]); try done.
      cbn. split; [by apply sound_key|]. eexists. split; done.
    - eapply set_agrees; [by left|by left|done].
    - apply stats_agrees.
    - unfold get_typed, mem_get. rewrite then_kind_method. eapply (key_agrees CGet None); try done.
      intros Hk Hl Ho. cbn. unfold spec_get.
      rewrite ordinary_ok by (by apply Ho). cbn. destruct (ks !! k) as [v|] eqn:Hv; cbn; [|done].
      rewrite ?decide_True by done. cbn.
      split; [done|]. split; [by apply (Hall k)|]. eexists. split; [done|]. unfold of_kind.
      rewrite decide_True by (by apply Hreg). done.
    - unfold set_typed, mem_set. rewrite then_kind_method. eapply set_agrees; [|by right|done]. by right.
    - unfold append_typed, mem_append. rewrite then_kind_method.
      eapply append_agrees; [|by right|done]. by right.
    - unfold increment_int, mem_increment_by. rewrite then_kind_method.
      apply (number_agrees true); [by right|by right; eauto|done|done].
    - unfold decrement_int, mem_decrement_by. rewrite then_kind_method.
      apply (number_agrees false); [by right|by right; eauto|done|done].
  Qed.
End call.

(** ** Histories *)

Lemma map_call_sum c i : (i_ok (map_call c i).1 + i_err (map_call c i).1 <= i_ok i + i_err i + 1)%N.
Proof.
  unfold map_call. destruct (refused c); cbn; [lia|]. destruct (act _ _ _ _) as [ks []]; cbn; lia.
Qed.

Lemma calls_agree h : forall s i,
  st_keys s = i_keys i -> counts_are s (i_ok i) (i_err i) 0 -> all_sound (i_keys i) ->
  (i_ok i + i_err i + lenN h < 2 ^ 63)%N -> all_within h i ->
  let '(s', rs) := mem_calls h s in
  let '(i', xs) := map_calls h i in
  Forall2 meets rs xs /\ st_keys s' = i_keys i'.
Proof.
  induction h as [|[e c] h IH]; intros s i Hks Hc Hall Hb Hw; cbn [mem_calls map_calls]; [by split|].
  destruct Hw as (He & Hw & Hreg & Hrest). rewrite lenN_cons in Hb.
  pose proof (call_agrees e s i He Hks Hc ltac:(lia) Hall c Hw Hreg) as (H1 & H2 & H3).
  assert (Hall' : all_sound (i_keys (map_call c i).1)) by apply Hw.
  pose proof (map_call_sum c i).
  destruct (mem_call e s c) as [s1 r1], (map_call c i) as [i1 x1]. cbn [fst snd] in *.
  specialize (IH s1 i1 H2 H3 Hall' ltac:(lia) Hrest).
  destruct (mem_calls h s1) as [s2 rs], (map_calls h i1) as [i2 xs].
  destruct IH as [IH1 IH2]. split; [|done]. apply Forall2_cons. by split.
Qed.

Lemma c42_is_a_map h : 
  (lenN h < 2 ^ 63)%N -> all_within h ideal_new ->
  let '(s, rs) := mem_calls h store_new in
  let '(i, xs) := map_calls h ideal_new in
  Forall2 meets rs xs /\ st_keys s = i_keys i.
Proof.
  intros Hl Hw. apply calls_agree; try done.
Qed.
