(** The clients: lemmas for C43 and C44. *)
From Coq Require Import String.
From Verif Require Import Bytes Utf8 Float64 Value CommandId Request Response RespContext
  Metrics Prog Commands EngineSpec WireSpec RequestSpec BytesFacts RequestFacts RequestProps
  ResponseFacts FloatFacts ProgFacts CommandFacts HistorySpec EngineFacts EngineProps
  HistoryFacts Client ClientSpec ClientFacts.
From stdpp Require Import gmap list.
From Coq Require Import NArith ZArith.
From Coq Require Import ZifyBool ZifyNat ZifyN Lia.

(** ** Every call is a request, sent, and an answer taken apart *)

Definition build (e : env) (c : client_call) : client_res builder :=
  let append k v := rbind (put_bytes e (builder_new_kt CAppend (Some (kind v))) k) (fun b =>
     put_appended e (CEKeyTypeUnsupported (kind v) (Some v)) b v) in
  let set k v :=
    rbind (put_bytes e (builder_new_kt CSet (Some (kind v))) k) (fun b => put_value e b v) in
  let by_ cmd k v := rbind (put_bytes e (builder_new_kt cmd (Some (kind v))) k) (fun b =>
     if not_number v then RErr (CEKeyTypeUnsupported (kind v) (Some v)) else put_value e b v) in
  match c with
  | KAppend k v | KAppendTyped k v => append k v
  | KSet k v | KSetTyped k v => set k v
  | KIncrementBy k v => by_ CIncrementBy k v
  | KDecrementBy k v => by_ CDecrementBy k v
  | KIncrementInt k n => by_ CIncrementBy k (VInteger (default 1%Z n))
  | KDecrementInt k n => by_ CDecrementBy k (VInteger (default 1%Z n))
  | KIncrementFloat k x => by_ CIncrementBy k (VFloat (default f64_one x))
  | KDecrementFloat k x => by_ CDecrementBy k (VFloat (default f64_one x))
  | KRename a b => rbind (put_bytes e (builder_new CRename) a) (fun x => put_bytes e x b)
  | KExists l => put_all e (builder_new CExists) l
  | KIs t l => put_all e (builder_new_kt CIs (Some t)) l
  | KIncrement k t => put_bytes e (builder_new_kt CIncrement t) k
  | KDecrement k t => put_bytes e (builder_new_kt CDecrement t) k
  | KDelete k => put_bytes e (builder_new CDelete) k
  | KEcho b => put_bytes e (builder_new CEcho) b
  | KGet k | KGetTyped k _ => put_bytes e (builder_new CGet) k
  | KKeyType k => put_bytes e (builder_new CType) k
  | KKeys k => put_bytes e (builder_new CKeys) k
  | KLength k t => put_bytes e (builder_new_kt CLength t) k
  | KStats => ROk (builder_new CStats)
  end.

(** [or_] is [or_panic] or [or_bad]. *)
Definition opened (or_ : forall A, option A -> client_res A) (c : client_call) (v : value)
  : client_res reply :=
  let number := or_ _ (a_number v) in
  let kept r := rbind r (fun v => ROk (RpValue v)) in
  match c with
  | KAppend _ _ | KSet _ _ | KGet _ => ROk (RpValue v)
  | KAppendTyped _ w | KSetTyped _ w => kept (of_kind (kind w) v)
  | KGetTyped _ t => kept (of_kind t v)
  | KIncrement _ _ | KDecrement _ _ | KIncrementBy _ _ | KDecrementBy _ _ => kept number
  | KIncrementInt _ _ | KDecrementInt _ _ => kept (rbind number (of_kind KTInteger))
  | KIncrementFloat _ _ | KDecrementFloat _ _ => kept (rbind number (of_kind KTFloat))
  | KDelete _ | KRename _ _ => rbind (or_ _ (as_bytes v)) (fun b => ROk (RpBytes b))
  | KEcho _ | KKeys _ => rbind (or_ _ (as_list v)) (fun l => ROk (RpItems l))
  | KExists _ | KIs _ _ => rbind (or_ _ (as_boolean v)) (fun b => ROk (RpBool b))
  | KKeyType _ => rbind (rbind (or_ _ (as_integer v)) a_key_type) (fun t => ROk (RpType t))
  | KLength _ _ => rbind (or_ _ (as_integer v)) (fun z => ROk (RpInt z))
  | KStats => rbind (or_ _ (as_map v)) (fun d =>
      ROk (RpStats (stats_commands_successful d) (stats_commands_errored d)
             (stats_sessions_started d) (stats_sessions_ended d)))
  end.

Lemma with_reply_method {A} (g : A -> reply) e s b f :
  with_reply g (mem_method e s b f) = mem_method e s b (fun v => rbind (f v) (fun a => ROk (g a))).
Proof.
  unfold with_reply, mem_method. destruct b as [b|err| |]; [|done..].
  by destruct (mem_send e s b) as [s' [v|err| |]].
Qed.

Lemma mem_call_method e s c :
  mem_call e s c = mem_method e s (build e c) (opened (@or_panic) c).
Proof.
  destruct c; cbn [mem_call build opened];
    unfold get_typed, set_typed, append_typed, increment_int, increment_float, decrement_int,
      decrement_float, mem_append, mem_decrement, mem_decrement_by, mem_delete, mem_echo,
      mem_exists, mem_get, mem_increment, mem_increment_by, mem_is, mem_key_type, mem_keys,
      mem_length, mem_rename, mem_set, mem_stats;
    rewrite ?then_kind_method, with_reply_method; try done.
Qed.

(** The request that is built, if none of its arguments is refused. *)
Definition makes (e : env) (c : client_call) (b : builder) : Prop :=
  let '(cmd, kt, l) := request_of e c in
  match cmd with
  | CStats => b = builder_new CStats /\ kt = None /\ l = []
  | _ => b = built cmd kt l /\ is_simple cmd = false
  end.

Lemma refused_number k v : is_empty k = false ->
  refused (KIncrementBy k v) = None -> not_number v = false.
Proof. intros Hk. cbn. rewrite Hk. by destruct (not_number v). Qed.

Lemma not_number_args v : not_number v = false -> value_arity v = 1%N /\ value_empty v = false.
Proof. by destruct v. Qed.

Lemma makes_refused e c err :
  env_ok e -> (sends c <= 255)%N -> refused c = Some err -> build e c = RErr err.
Proof.
  intros He Hs Hr.
  assert (H1 : forall k cmd kt, (if is_empty k then Some (CEBuildingRequest BEArgumentEmpty) else None)
      = Some err -> put_bytes e (builder_new_kt cmd kt) k = RErr err).
  { intros k cmd kt. destruct (is_empty k) eqn:Hk; [|done]. intros [= <-].
    by apply is_empty_true in Hk as ->. }
  assert (Hl : forall l cmd kt, is_simple cmd = false -> (lenN l <= 255)%N ->
    (if existsb is_empty l then Some (CEBuildingRequest BEArgumentEmpty) else None) = Some err ->
    put_all e (builder_new_kt cmd kt) l = RErr err).
  { intros l cmd kt Hcmd Hlen. destruct (existsb is_empty l) eqn:Hk; [|done]. intros [= <-].
    rewrite builder_new_kt_built by done. apply put_all_empty; [done|]. by rewrite lenN_nil. }
  assert (Ha : forall k v, refused (KAppend k v) = Some err -> (1 + value_arity v <= 255)%N ->
    build e (KAppend k v) = RErr err).
  { intros k v Hrf Hn. cbn in Hrf |- *. destruct (is_empty k) eqn:Hk.
    { injection Hrf as <-. by apply is_empty_true in Hk as ->. }
    rewrite builder_new_kt_built, put_bytes_built by (try done; by apply is_empty_false).
    cbn [rbind app]. destruct v as [x|bs|y|z|items|m|st|str]; cbn in Hrf |- *; try (by injection Hrf as <-).
    - destruct (is_empty bs) eqn:Hb; [|done]. injection Hrf as <-. by apply is_empty_true in Hb as ->.
    - destruct (existsb is_empty items) eqn:Hx; [|done]. injection Hrf as <-. apply put_all_empty; [done|].
      change (lenN [k]) with 1%N. by cbn in Hn.
    - destruct (is_empty str) eqn:Hb; [|done]. injection Hrf as <-. by apply is_empty_true in Hb as ->. }
  assert (Hset : forall k v, refused (KSet k v) = Some err -> (1 + value_arity v <= 255)%N ->
    build e (KSet k v) = RErr err).
  { intros k v Hrf Hn. cbn in Hrf |- *. destruct (is_empty k) eqn:Hk.
    { injection Hrf as <-. by apply is_empty_true in Hk as ->. }
    apply is_empty_false in Hk.
    rewrite builder_new_kt_built, put_bytes_built by done. cbn [rbind app].
    destruct (value_empty v) eqn:Hv; [|done]. injection Hrf as <-. by apply put_value_empty. }
  assert (Hby : forall k v cmd, is_simple cmd = false -> refused (KIncrementBy k v) = Some err ->
    rbind (put_bytes e (builder_new_kt cmd (Some (kind v))) k) (fun b =>
      if not_number v then RErr (CEKeyTypeUnsupported (kind v) (Some v)) else put_value e b v)
    = RErr err).
  { intros k v cmd Hcmd Hrf. cbn in Hrf. destruct (is_empty k) eqn:Hk.
    { injection Hrf as <-. by apply is_empty_true in Hk as ->. }
    apply is_empty_false in Hk.
    rewrite builder_new_kt_built, put_bytes_built by done. cbn [rbind app].
    destruct (not_number v); [|done]. by injection Hrf as <-. }
  destruct c; try done; cbn [build] in *;
    try (by apply Ha); try (by apply Hset); 
    try (change (builder_new ?x) with (builder_new_kt x None); first [by apply H1|by apply Hl]);
    try (by apply H1); try (by apply Hl); try (by apply Hby).
  cbn in Hr. change (builder_new CRename) with (built CRename None []).
  destruct (is_empty from) eqn:Hf.
  { injection Hr as <-. by apply is_empty_true in Hf as ->. }
  rewrite put_bytes_built by (try done; by apply is_empty_false). cbn [rbind].
  destruct (is_empty to) eqn:Ht; [|done]. injection Hr as <-. by apply is_empty_true in Ht as ->.
Qed.

Lemma makes_built e c :
  env_ok e -> (sends c <= 255)%N -> refused c = None -> exists b, build e c = ROk b /\ makes e c b.
Proof.
  intros He Hs Hr.
  assert (H1 : forall k cmd kt, is_simple cmd = false ->
    (if is_empty k then Some (CEBuildingRequest BEArgumentEmpty) else None) = None ->
    put_bytes e (builder_new_kt cmd kt) k = ROk (built cmd kt [k])).
  { intros k cmd kt Hcmd. destruct (is_empty k) eqn:Hk; [done|]. intros _.
    by rewrite builder_new_kt_built, put_bytes_built by (try done; by apply is_empty_false). }
  assert (Hl : forall l cmd kt, is_simple cmd = false -> (lenN l <= 255)%N ->
    (if existsb is_empty l then Some (CEBuildingRequest BEArgumentEmpty) else None) = None ->
    put_all e (builder_new_kt cmd kt) l = ROk (built cmd kt l)).
  { intros l cmd kt Hcmd Hlen. destruct (existsb is_empty l) eqn:Hk; [done|]. intros _.
    by rewrite builder_new_kt_built, put_all_built by (done || by rewrite lenN_nil). }
  assert (Ha : forall k v, refused (KAppend k v) = None -> (1 + value_arity v <= 255)%N ->
    build e (KAppend k v) = ROk (built CAppend (Some (kind v)) (k :: value_args e v))).
  { intros k v Hrf Hn. cbn in Hrf |- *. destruct (is_empty k) eqn:Hk; [done|].
    rewrite builder_new_kt_built, put_bytes_built by (try done; by apply is_empty_false).
    cbn [rbind app]. destruct v as [x|bs|y|z|items|m|st|str]; cbn in Hrf |- *; try done.
    - destruct (is_empty bs) eqn:Hb; [done|].
      by rewrite put_bytes_built by (try done; by apply is_empty_false).
    - destruct (existsb is_empty items) eqn:Hx; [done|]. rewrite put_all_built; [done|done|].
      change (lenN [k]) with 1%N. by cbn in Hn.
    - destruct (is_empty str) eqn:Hb; [done|].
      by rewrite put_bytes_built by (try done; by apply is_empty_false). }
  assert (Hset : forall k v, refused (KSet k v) = None -> (1 + value_arity v <= 255)%N ->
    build e (KSet k v) = ROk (built CSet (Some (kind v)) (k :: value_args e v))).
  { intros k v Hrf Hn. cbn in Hrf |- *. destruct (is_empty k) eqn:Hk; [done|].
    apply is_empty_false in Hk.
    rewrite builder_new_kt_built, put_bytes_built by done. cbn [rbind app].
    destruct (value_empty v) eqn:Hv; [done|]. by rewrite put_value_built by done. }
  assert (Hby : forall k v cmd, is_simple cmd = false -> refused (KIncrementBy k v) = None ->
    rbind (put_bytes e (builder_new_kt cmd (Some (kind v))) k) (fun b =>
      if not_number v then RErr (CEKeyTypeUnsupported (kind v) (Some v)) else put_value e b v)
    = ROk (built cmd (Some (kind v)) (k :: value_args e v))).
  { intros k v cmd Hcmd Hrf. cbn in Hrf. destruct (is_empty k) eqn:Hk; [done|].
    apply is_empty_false in Hk.
    rewrite builder_new_kt_built, put_bytes_built by done. cbn [rbind app].
    destruct (not_number v) eqn:Hv; [done|]. destruct (not_number_args v Hv) as [Hv1 Hv2].
    rewrite put_value_built; [done|done| |done]. change (lenN [k]) with 1%N. lia. }
  destruct c; cbn [build] in *; unfold makes; cbn [request_of];
    try (eexists; split; [by apply Ha|done]); try (eexists; split; [by apply Hset|done]);
    
    try (change (builder_new ?x) with (builder_new_kt x None);
      eexists; split; [first [by apply H1|by apply Hl]|done]);
    try (eexists; split; [by apply H1|done]); try (eexists; split; [by apply Hl|done]);
    try (eexists; split; [by apply Hby|done]).
  - cbn in Hr. change (builder_new CRename) with (built CRename None []).
    destruct (is_empty from) eqn:Hf; [done|].
    rewrite put_bytes_built by (try done; by apply is_empty_false). cbn [rbind].
    destruct (is_empty to) eqn:Ht; [done|].
    rewrite put_bytes_built by (try done; by apply is_empty_false). by eexists.
  - by eexists.
Qed.

Lemma makes_asks e c b : makes e c b ->
  let '(cmd, kt, l) := request_of e c in asks (into_request b) cmd kt l.
Proof.
  unfold makes. destruct (request_of e c) as [[cmd kt] l].
  destruct cmd; try (intros [-> _]; apply built_asks).
  intros (-> & -> & ->). split; [done|]. split; [done|]. by apply req_args_nil.
Qed.

(** ** C43 *)

Definition fine (f : value -> client_res reply) (a : answer) : Prop :=
  match a with
  | AVal v => sound v /\ comes_back (f v)
  | AKeys m => forall l, l ≡ₚ elements m -> sound (VList l) /\ comes_back (f (VList l))
  | AErr _ => True
  | ACrash => False
  end.

Lemma send_comes_back e s b f cmd kt l :
  env_ok e -> asks (into_request b) cmd kt l -> room s ->
  fine f (spec_command (debug e) (engine_stats s) cmd kt l (st_keys s)).2 ->
  comes_back (mem_method e s (ROk b) f).2.
Proof.
  intros He (Hc & Hk & Hq) Hr Hf.
  destruct (dispatch_answered e s (into_request b) [] l He Hq Hr) as [Ha _].
  cbn zeta in *. rewrite Hc, Hk in Ha.
  destruct (spec_command _ _ _ _ _ _) as [ks a]. cbn [fst snd] in *. unfold mem_method.
  destruct a as [v|m|er|]; cbn [answered fine] in *.
  - destruct Hf as [Hv Hf]. destruct (responds_sound e s b v Hv Ha) as (s' & -> & _). done.
  - destruct Ha as (x & Hx & Ha). destruct (Hf x Hx) as [Hv Hf'].
    destruct (responds_sound e s b (VList x) Hv Ha) as (s' & -> & _). done.
  - unfold mem_send. destruct (dispatch e s (into_request b) []) as [s' r]. cbn [fst snd] in *.
    by subst r.
  - done.
Qed.

Lemma add_fine dbg ks k n f :
  ordinary k -> (dbg = true -> forall z, default (VInteger 0) (ks !! k) = VInteger z -> i64_range (z + n)) ->
  (forall z, default (VInteger 0) (ks !! k) = VInteger z -> forall z', comes_back (f (VInteger z'))) ->
  fine f (spec_add_int dbg ks k n).2.
Proof.
  intros Ho Hz Hf. unfold spec_add_int. rewrite ordinary_ok by done.
  destruct (default (VInteger 0) (ks !! k)) eqn:Hd; try done.
  destruct (decide _) as [Hr|Hr]; cbn.
  - split; [by apply sound_int|]. by eapply Hf.
  - destruct dbg; cbn; [by apply Hr, Hz|]. split; [by apply sound_int, i64_wrap_range|]. by eapply Hf.
Qed.

Lemma c43_returns e s c :
  env_ok e -> room s -> all_sound (st_keys s) -> valid c (st_keys s) ->
  (debug e = true -> adds_up c (st_keys s)) -> right_kind c (st_keys s) ->
  comes_back (mem_call e s c).2.
Proof.
  intros He Hroom Hall (Hs & Hlen & Hres & Hwf & Hnew) Hadd Hkind.
  rewrite mem_call_method. destruct (refused c) as [err|] eqn:Hr.
  { by rewrite (makes_refused e c err). }
  destruct (makes_built e c He Hs Hr) as (b & -> & Hm). apply makes_asks in Hm.
  destruct (request_of e c) as [[cmd kt] l] eqn:Hq.
  eapply send_comes_back; [done|done|done|].
  set (ks := st_keys s) in *. clearbody ks.
  assert (Hk1 : forall k, (if is_empty k then Some (CEBuildingRequest BEArgumentEmpty) else None) = None ->
    k <> []).
  { intros k. by destruct (is_empty k) eqn:Hk; [|intros _; apply is_empty_false]. }
  assert (Hk2 : forall k x, (if is_empty k then Some (CEBuildingRequest BEArgumentEmpty) else x) = None ->
    k <> [] /\ x = None).
  { intros k x. destruct (is_empty k) eqn:Hk; [done|]. split; [by apply is_empty_false|done]. }
  assert (Hput : forall k v f, all_sound (<[k := v]> ks) -> comes_back (f v) -> fine f (AVal v)).
  { intros k v f Hnw Hf. split; [|done]. apply (Hnw k). by rewrite lookup_insert. }
  assert (Happ : forall k v f, refused (KAppend k v) = None -> ~ reserved k ->
    value_wf v ->
    all_sound (act 0 0 (KAppend k v) ks).1 -> (forall w, kind w = kind v -> comes_back (f w)) ->
    fine f (spec_command (debug e) (engine_stats s) CAppend (Some (kind v)) (k :: value_args e v) ks).2).
  { clear Hr. intros k v f Hr Hk Hv Hnw Hf. cbn in Hr. apply Hk2 in Hr as [Hk' Hr].
    assert (Ho : ordinary k) by done. cbn [spec_command]. unfold spec_append.
    destruct v as [x|bs|y|z|items|m|st|str]; cbn [kind type_or value_args] in *; try done;
      rewrite ordinary_ok by done; cbn [act] in Hnw;
      (destruct (ks !! k) as [[x'|bs'|y'|z'|items'|m'|st'|str']|] eqn:Hlk;
         cbn [default from_option id joined fst snd concat] in *; try done);
      rewrite ?app_nil_r; try (apply (Hput k); [done|by apply Hf]);
      rewrite filter_cons_True, filter_nil by done; cbn [concat]; rewrite ?app_nil_r;
      (apply (Hput k); [done|by apply Hf]). }
  assert (Hset : forall k v f, refused (KSet k v) = None -> ~ reserved k -> value_wf v ->
    all_sound (act 0 0 (KSet k v) ks).1 -> comes_back (f v) ->
    fine f (spec_command (debug e) (engine_stats s) CSet (Some (kind v)) (k :: value_args e v) ks).2).
  { clear Hr. intros k v f Hr Hk Hv Hnw Hf. cbn in Hr. apply Hk2 in Hr as [Hk' Hr].
    cbn [act fst] in Hnw.
    assert (Hsv : sound v) by (apply (Hnw k); by rewrite lookup_insert).
    assert (Hne : value_args e v <> []).
    { apply value_args_nonempty; [done|by destruct (value_empty v)|]. by destruct Hsv as (_ & _ & _ & ? & _). }
    destruct (value_args e v) as [|a r] eqn:Hva; [done|]. cbn [spec_command]. unfold spec_set.
    cbn [type_or]. rewrite <-Hva, spells_value_of, ordinary_ok; try done.
    - by apply value_args_spells.
    - by rewrite Hva. }
  assert (Hinc : forall k v f n, refused (KIncrementBy k v) = None -> ~ reserved k ->
    value_args e v = [n] ->
    (debug e = true -> forall x, arg_int n = Some x ->
      forall z, default (VInteger 0) (ks !! k) = VInteger z -> i64_range (z + x)) ->
    (forall z, default (VInteger 0) (ks !! k) = VInteger z -> forall z', comes_back (f (VInteger z'))) ->
    fine f (spec_command (debug e) (engine_stats s) CIncrementBy (Some (kind v)) (k :: value_args e v) ks).2).
  { clear Hr. intros k v f n Hr Hk Hn Hov Hf. cbn in Hr. apply Hk2 in Hr as [Hk' Hr]. rewrite Hn.
    cbn [spec_command]. unfold spec_increment_by. destruct (arg_int n) as [x|] eqn:Hx; [|done].
    apply add_fine; [done| |done]. intros Hd. by apply Hov. }
  assert (Hdec : forall k v f n, refused (KIncrementBy k v) = None -> ~ reserved k ->
    value_args e v = [n] ->
    (debug e = true -> forall x, arg_int n = Some x -> i64_range (- x) /\
      forall z, default (VInteger 0) (ks !! k) = VInteger z -> i64_range (z + - x)) ->
    (forall z, default (VInteger 0) (ks !! k) = VInteger z -> forall z', comes_back (f (VInteger z'))) ->
    fine f (spec_command (debug e) (engine_stats s) CDecrementBy (Some (kind v)) (k :: value_args e v) ks).2).
  { clear Hr. intros k v f n Hr Hk Hn Hov Hf. cbn in Hr. apply Hk2 in Hr as [Hk' Hr]. rewrite Hn.
    cbn [spec_command]. unfold spec_decrement_by. destruct (arg_int n) as [x|] eqn:Hx; [|done].
    destruct (decide _) as [Hd|Hd].
    - apply add_fine; [done| |done]. intros Hde. by apply Hov.
    - destruct (debug e) eqn:Hde; [by apply Hd, Hov|]. by apply add_fine. }
  assert (Hfl : forall x, (x < u64_mod)%N -> arg_int (be_enc 8 x) = Some (i64_of_u64 x)).
  { intros x Hx. unfold arg_int. rewrite be_enc_len. cbn [Nat.leb].
    rewrite take_ge by (by rewrite be_enc_len). unfold i64_dec. by rewrite be8. }
  assert (Hamt : forall k v, refused (KIncrementBy k v) = None -> value_wf v -> exists n, value_args e v = [n] /\
      arg_int n = Some (match v with VInteger z => z | VFloat x => i64_of_u64 x | _ => 0 end)%Z /\
      (match v with VInteger z => True | VFloat x => True | _ => False end)).
  { clear Hr. intros k v Hr Hv. cbn in Hr. apply Hk2 in Hr as [Hk' Hr].
    destruct v; try done; eexists; (split; [done|]); split; try done. 1: by apply Hfl. by apply arg_int_enc. }
  destruct c; cbn [request_of] in Hq; injection Hq as <- <- <-; cbn [named refuses_reserved carried] in *;
    try (assert (Hrk : ~ reserved k) by (specialize (Hres eq_refl); by apply Forall_inv in Hres)).
  all: try (specialize (Hwf _ eq_refl)).
  - by apply Happ.
  - cbn in Hr. apply Hk1 in Hr. cbn [spec_command].
    destruct (decide (t = Some KTFloat)) as [->|Ht].
    + unfold spec_add_float. rewrite ordinary_ok by done. destruct (ks !! k) as [[]|]; try done.
      cbn. split; [apply sound_float, f64_add_lt|done].
    + destruct t as [[]|]; try done; (apply add_fine; [done| |done]; intros Hd z Hz;
        destruct (Hadd Hd k _ eq_refl) as [_ H]; by apply H).
  - destruct (Hamt k v Hr Hwf) as (n & Hn & Hx & Hv). eapply Hdec; [done|done|done| |done].
    intros Hd x Hx'. rewrite Hx in Hx'. injection Hx' as <-.
    destruct v; try done; by apply (Hadd Hd k _ eq_refl).
  - cbn in Hr. apply Hk1 in Hr. cbn. unfold is_present. destruct (ks !! k); cbn; [|done].
    split; [|done]. apply sound_key; [done|]. by apply Forall_inv in Hlen.
  - cbn. split; [|done]. apply sound_echo. by apply Forall_inv in Hlen.
  - cbn. destruct keys; cbn; [done|]. split; [apply sound_bool|done].
  - cbn in Hr. apply Hk1 in Hr. cbn. unfold spec_get. rewrite ordinary_ok by done.
    destruct (ks !! k) as [v|] eqn:Hv; cbn; [|done]. split; [by apply (Hall k)|done].
  - cbn in Hr. apply Hk1 in Hr. cbn [spec_command].
    destruct (decide (t = Some KTFloat)) as [->|Ht].
    + unfold spec_add_float. rewrite ordinary_ok by done. destruct (ks !! k) as [[]|]; try done.
      cbn. split; [apply sound_float, f64_add_lt|done].
    + destruct t as [[]|]; try done; (apply add_fine; [done| |done]; intros Hd z Hz;
        destruct (Hadd Hd k _ eq_refl) as [_ H]; by apply H).
  - destruct (Hamt k v Hr Hwf) as (n & Hn & Hx & Hv). eapply Hinc; [done|done|done| |done].
    intros Hd x Hx'. rewrite Hx in Hx'. injection Hx' as <-.
    destruct v; try done; by apply (Hadd Hd k _ eq_refl).
  - cbn. destruct keys; cbn; [done|]. split; [apply sound_bool|done].
  - cbn. destruct (ks !! k) as [v|]; cbn; [|done]. split; [apply sound_int; by destruct v|by destruct v].
  - cbn in Hr. apply Hk1 in Hr. cbn. unfold spec_keys. rewrite ordinary_ok by done.
    cbn. destruct (ks !! k) as [v|] eqn:Hv; cbn; [|done]. destruct v; try done. cbn. intros l' Hl'.
    split; [|done]. destruct (Hall k _ Hv) as [Hsv Hne]. eapply keys_fit; [done| |done]. by intros ->.
  - cbn in Hr. apply Hk1 in Hr. cbn. unfold spec_length. rewrite ordinary_ok by done.
    assert (Hsz : forall v n, ks !! k = Some v -> size_of v = Some n -> sound (VInteger (Z.of_N n))).
    { intros v n Hv Hn. destruct (Hall k _ Hv) as [Hsv Hne]. apply sound_int.
      pose proof (sizes_fit v n Hsv Hn). unfold i64_range, i64_half. lia. }
    destruct (type_or ks t k KTBytes); try done;
      (destruct (ks !! k) as [v|] eqn:Hv; [|done]; destruct (decide _); [|done];
       destruct (size_of v) as [n|] eqn:Hn; [|done]; cbn; split; [by eapply Hsz|done]).
  - cbn in Hr. apply Hk2 in Hr as [Hf Hr]. apply Hk1 in Hr. cbn. unfold spec_rename.
    destruct (ks !! from); [|done]. destruct (ks !! to); [done|]. cbn. split; [|done].
    apply sound_key; [done|]. apply Forall_cons in Hlen as [_ Hlen]. by apply Forall_inv in Hlen.
  - by apply Hset.
  - cbn. split; [apply sound_stats|done].
  - cbn in Hr. apply Hk1 in Hr. cbn. unfold spec_get. rewrite ordinary_ok by done.
    destruct (ks !! k) as [v|] eqn:Hv; cbn; [|done]. split; [by apply (Hall k)|].
    unfold of_kind. by rewrite decide_True by (by apply Hkind).
  - apply Hset; try done. cbn. unfold of_kind. by rewrite decide_True.
  - apply Happ; try done. intros w Hw. cbn. unfold of_kind. by rewrite decide_True.
  - destruct (Hamt k (VInteger (default 1%Z n)) Hr Hwf) as (x & Hn & Hx & _).
    eapply (Hinc k (VInteger (default 1%Z n))); [done|done|done| |done].
    intros Hd x' Hx'. rewrite Hx in Hx'. injection Hx' as <-. by apply (Hadd Hd k _ eq_refl).
  - destruct (Hamt k (VFloat (default f64_one x)) Hr Hwf) as (b0 & Hn & Hx & _).
    eapply (Hinc k (VFloat (default f64_one x))); [done|done|done| |].
    + intros Hd x' Hx'. rewrite Hx in Hx'. injection Hx' as <-. by apply (Hadd Hd k _ eq_refl).
    + intros z Hz. exfalso. cbn in Hr. apply Hk1 in Hr. destruct (Hkind Hr) as (w & Hw & Hnk).
      rewrite Hw in Hz. cbn in Hz. subst w. done.
  - destruct (Hamt k (VInteger (default 1%Z n)) Hr Hwf) as (x & Hn & Hx & _).
    eapply (Hdec k (VInteger (default 1%Z n))); [done|done|done| |done].
    intros Hd x' Hx'. rewrite Hx in Hx'. injection Hx' as <-. by apply (Hadd Hd k _ eq_refl).
  - destruct (Hamt k (VFloat (default f64_one x)) Hr Hwf) as (b0 & Hn & Hx & _).
    eapply (Hdec k (VFloat (default f64_one x))); [done|done|done| |].
    + intros Hd x' Hx'. rewrite Hx in Hx'. injection Hx' as <-. by apply (Hadd Hd k _ eq_refl).
    + intros z Hz. exfalso. cbn in Hr. apply Hk1 in Hr. destruct (Hkind Hr) as (w & Hw & Hnk).
      rewrite Hw in Hz. cbn in Hz. subst w. done.
Qed.

(** A typed read of a key of another type panics. *)
Lemma c43_get_other_kind e s k t v :
  env_ok e -> room s -> ordinary k -> st_keys s !! k = Some v -> sound v -> kind v <> t ->
  (mem_call e s (KGetTyped k t)).2 = RPanic.
Proof.
  intros He Hr Ho Hk Hv Hne. rewrite mem_call_method.
  assert (Href : refused (KGetTyped k t) = None).
  { cbn. destruct (is_empty k) eqn:E; [|done]. apply is_empty_true in E as ->. by destruct Ho. }
  destruct (makes_built e (KGetTyped k t) He ltac:(done) Href) as (b & -> & Hm).
  apply makes_asks in Hm. cbn [request_of] in Hm. destruct Hm as (Hc & Hkt & Hq).
  destruct (dispatch_answered e s (into_request b) [] [k] He Hq Hr) as [Ha _].
  cbn zeta in Ha. rewrite Hc, Hkt in Ha. cbn [spec_command] in Ha. unfold spec_get in Ha.
  rewrite ordinary_ok, Hk in Ha by done. cbn [snd answered] in Ha.
  unfold mem_method. destruct (responds_sound e s b v Hv Ha) as (s' & -> & _).
  cbn. unfold of_kind. by rewrite decide_False.
Qed.

(** Adding a float to a key that is missing or holds an integer: the bits of the float are added
    as an integer, and [increment(k).float()] panics. *)
Lemma float_amount e s k x z :
  env_ok e -> room s -> ordinary k -> (x < u64_mod)%N ->
  default (VInteger 0) (st_keys s !! k) = VInteger z -> i64_range (z + i64_of_u64 x) ->
  let sum := VInteger (z + i64_of_u64 x) in
  (mem_call e s (KIncrementBy k (VFloat x))).2 = ROk (RpValue sum) /\
  st_keys (mem_call e s (KIncrementBy k (VFloat x))).1 = <[k := sum]> (st_keys s) /\
  (mem_call e s (KIncrementFloat k (Some x))).2 = RPanic /\
  st_keys (mem_call e s (KIncrementFloat k (Some x))).1 = <[k := sum]> (st_keys s).
Proof.
  intros He Hr Ho Hx Hk Hz sum. rewrite !mem_call_method.
  change (build e (KIncrementFloat k (Some x))) with (build e (KIncrementBy k (VFloat x))).
  assert (Href : refused (KIncrementBy k (VFloat x)) = None).
  { cbn. destruct (is_empty k) eqn:E; [|done]. apply is_empty_true in E as ->. by destruct Ho. }
  destruct (makes_built e (KIncrementBy k (VFloat x)) He ltac:(done) Href) as (b & -> & Hm).
  apply makes_asks in Hm. cbn [request_of kind value_args] in Hm. destruct Hm as (Hc & Hkt & Hq).
  destruct (dispatch_answered e s (into_request b) [] _ He Hq Hr) as [Ha Hks].
  cbn zeta in Ha, Hks. rewrite Hc, Hkt in Ha, Hks. cbn [spec_command] in Ha, Hks.
  unfold spec_increment_by in Ha, Hks.
  assert (Harg : arg_int (be_enc 8 x) = Some (i64_of_u64 x)).
  { unfold arg_int. rewrite be_enc_len. cbn [Nat.leb].
    rewrite take_ge by (by rewrite be_enc_len). unfold i64_dec. by rewrite be8. }
  rewrite Harg in Ha, Hks. unfold spec_add_int in Ha, Hks.
  rewrite ordinary_ok, Hk, decide_True in Ha, Hks by done. cbn [fst snd answered] in Ha, Hks.
  unfold mem_method.
  destruct (responds_sound e s b sum (sound_int _ Hz) Ha) as (s' & -> & Hs' & Hok & _).
  assert (Hks' : st_keys s' = <[k := sum]> (st_keys s)).
  { rewrite Hs'. apply Hks. intros Hp. by rewrite Hp in Hok. }
  cbn. by rewrite Hks'.
Qed.

(** ... and on a key that holds a float it fails. *)
Lemma float_amount_fails e s k x f :
  env_ok e -> room s -> ordinary k -> (x < u64_mod)%N -> st_keys s !! k = Some (VFloat f) ->
  (mem_call e s (KIncrementBy k (VFloat x))).2 = RErr (CERunningCommand EKeyTypeDifferent).
Proof.
  intros He Hr Ho Hx Hk. rewrite mem_call_method.
  assert (Href : refused (KIncrementBy k (VFloat x)) = None).
  { cbn. destruct (is_empty k) eqn:E; [|done]. apply is_empty_true in E as ->. by destruct Ho. }
  destruct (makes_built e (KIncrementBy k (VFloat x)) He ltac:(done) Href) as (b & -> & Hm).
  apply makes_asks in Hm. cbn [request_of kind value_args] in Hm. destruct Hm as (Hc & Hkt & Hq).
  destruct (dispatch_answered e s (into_request b) [] _ He Hq Hr) as [Ha _].
  cbn zeta in Ha. rewrite Hc, Hkt in Ha. cbn [spec_command] in Ha.
  unfold spec_increment_by, arg_int in Ha. rewrite be_enc_len in Ha. cbn [Nat.leb] in Ha.
  unfold spec_add_int in Ha. rewrite ordinary_ok, Hk in Ha by done.
  cbn [default from_option id snd answered] in Ha. unfold mem_method, mem_send.
  destruct (dispatch e s (into_request b) []) as [s' r]. cbn in Ha. by subst r.
Qed.

(** ** C44 *)

Lemma with_reply_to_method {A} (g : A -> reply) e n b f :
  with_reply_to g (srv_method e n b f) = srv_method e n b (fun v => rbind (f v) (fun a => ROk (g a))).
Proof.
  unfold with_reply_to, srv_method. destruct b as [b|err| |]; [|done..].
  by destruct (send_and_wait e n b) as [s' [v|err| |]].
Qed.

Lemma to_kind_method e n b f t :
  to_kind t (srv_method e n b f) = srv_method e n b (fun v => rbind (f v) (of_kind t)).
Proof.
  unfold to_kind, srv_method. destruct b as [b|err| |]; [|done..].
  by destruct (send_and_wait e n b) as [s' [v|err| |]].
Qed.

Lemma closed_at_once e n b :
  send_and_wait e n b =
  if n_write_ok n then (r_buf (into_request b), RErr CEConnectionClosed) else ([], RErr CEWritingMessage).
Proof.
  unfold send_and_wait. destruct (n_write_ok n); [|done]. cbn [wait_loop]. unfold read_exact.
  change (lenN []) with 0%N. by replace (0 <=? lenN (n_arrives n))%N with true by lia.
Qed.

Lemma srv_method_never {A} e n b (f : value -> client_res A) r : (srv_method e n b f).2 <> ROk r.
Proof.
  unfold srv_method. destruct b as [b|err| |]; try done. rewrite closed_at_once.
  by destruct (n_write_ok n).
Qed.

Lemma c44_never e n c r : (srv_call e n c).2 <> ROk r.
Proof.
  destruct c; cbn [srv_call];
    unfold srv_append, srv_decrement, srv_decrement_by, srv_delete, srv_echo,
      srv_exists, srv_get, srv_increment, srv_increment_by, srv_is, srv_key_type, srv_keys,
      srv_length, srv_rename, srv_set, srv_stats;
    rewrite ?to_kind_method, with_reply_to_method; apply srv_method_never.
Qed.

(** The builders are those of the memory client, but for [increment], whose type is lost. *)
Definition as_sent (c : client_call) : client_call :=
  match c with KIncrement k _ => KIncrement k None | _ => c end.

Lemma put_appended_built e u u' b v b' :
  put_appended e u b v = ROk b' -> put_appended e u' b v = ROk b'.
Proof. by destruct v. Qed.

Lemma srv_call_method e n c b :
  build e (as_sent c) = ROk b ->
  exists f, srv_call e n c = srv_method e n (ROk b) f.
Proof.
  intros Hb.
  assert (Ha : forall k v, build e (KAppend k v) = ROk b ->
    (rbind (put_bytes e (builder_new_kt CAppend (Some (kind v))) k) (fun b =>
     put_appended e (CEKeyTypeUnsupported (kind v) None) b v)) = ROk b).
  { intros k v. cbn. destruct (put_bytes _ _ _); cbn; [|done..]. apply put_appended_built. }
  assert (Hd : forall k v, build e (KDecrementBy k v) = ROk b ->
    (rbind (put_bytes e (builder_new_kt CDecrementBy (Some (kind v))) k) (fun b =>
     if not_number v then RErr (CEKeyTypeUnsupported (kind v) None) else put_value e b v)) = ROk b).
  { intros k v. cbn. destruct (put_bytes _ _ _); cbn; [|done..]. by destruct (not_number v). }
  assert (Hi : forall k v, build e (KIncrementBy k v) = ROk b ->
    (if not_number v then RErr (CEKeyTypeUnsupported (kind v) None)
     else rbind (put_bytes e (builder_new_kt CIncrementBy (Some (kind v))) k) (fun b =>
          put_value e b v)) = ROk b).
  { intros k v. cbn. destruct (not_number v); [|done]. by destruct (put_bytes _ _ _). }
  destruct c; cbn [srv_call as_sent] in *;
    unfold srv_append, srv_decrement, srv_decrement_by, srv_delete, srv_echo,
      srv_exists, srv_get, srv_increment, srv_increment_by, srv_is, srv_key_type, srv_keys,
      srv_length, srv_rename, srv_set, srv_stats;
    rewrite ?to_kind_method, with_reply_to_method; eexists;
    first [rewrite (Ha _ _ Hb); reflexivity | rewrite (Hd _ _ Hb); reflexivity
          | rewrite (Hi _ _ Hb); reflexivity
          | rewrite (Hd k (VInteger (default 1%Z n0)) Hb); reflexivity
          | rewrite (Hi k (VInteger (default 1%Z n0)) Hb); reflexivity
          | rewrite (Hd k (VFloat (default f64_one x)) Hb); reflexivity
          | rewrite (Hi k (VFloat (default f64_one x)) Hb); reflexivity
          | idtac];
    cbn [build] in Hb; first [rewrite <-Hb; reflexivity|idtac].
Qed.

Lemma makes_wire e c b : makes e c b ->
  Forall (fun a => lenN a < 2 ^ 32)%N (request_of e c).2 -> r_buf (into_request b) = wire_call e c.
Proof.
  unfold makes, wire_call. destruct (request_of e c) as [[cmd kt] l]. cbn [snd]. intros Hm Hl.
  destruct cmd; try (destruct Hm as [-> _]; cbn; unfold wire_request; by rewrite enc_args_wire).
  destruct Hm as (-> & _). done.
Qed.

Lemma c44_as_sent e n c :
  env_ok e -> (sends c <= 255)%N -> refused c = None ->
  Forall (fun a => lenN a < 2 ^ 32)%N (request_of e c).2 ->
  srv_call e n c =
  if n_write_ok n then (wire_call e (as_sent c), RErr CEConnectionClosed) else ([], RErr CEWritingMessage).
Proof.
  intros He Hs Hr Hl.
  destruct (makes_built e (as_sent c) He) as (b & Hb & Hm); [by destruct c|by destruct c|].
  destruct (srv_call_method e n c b Hb) as [f ->]. unfold srv_method. rewrite closed_at_once.
  rewrite (makes_wire e (as_sent c)); [|done|by destruct c]. by destruct (n_write_ok n).
Qed.

Lemma c44_sends e n c :
  env_ok e -> (sends c <= 255)%N -> refused c = None ->
  Forall (fun a => lenN a < 2 ^ 32)%N (request_of e c).2 ->
  (forall k t, c <> KIncrement k (Some t)) -> n_write_ok n = true ->
  srv_call e n c = (wire_call e c, RErr CEConnectionClosed).
Proof.
  intros He Hs Hr Hl Hc Hn. rewrite c44_as_sent, Hn by done.
  destruct c; try done. destruct t; [|done]. by destruct (Hc k k0).
Qed.

Lemma c44_increment e n k t :
  env_ok e -> k <> [] -> (lenN k < 2 ^ 32)%N -> n_write_ok n = true ->
  srv_call e n (KIncrement k t) = (wire_request CIncrement None [k], RErr CEConnectionClosed).
Proof.
  intros He Hk Hl Hn. rewrite c44_as_sent, Hn; try done.
  - cbn. destruct (is_empty k) eqn:E; [|done]. by apply is_empty_true in E.
  - cbn. by apply Forall_singleton.
Qed.

(** A call that the client refuses writes nothing. *)
Lemma c44_refused e n c err :
  env_ok e -> (sends c <= 255)%N -> refused c = Some err ->
  exists err', srv_call e n c = ([], RErr err').
Proof.
  intros He Hs Hr.
  assert (Hb : build e (as_sent c) = RErr err).
  { apply makes_refused; [done|by destruct c|by destruct c]. }
  assert (Ha : forall k v, build e (KAppend k v) = RErr err -> exists err',
    (rbind (put_bytes e (builder_new_kt CAppend (Some (kind v))) k) (fun b =>
     put_appended e (CEKeyTypeUnsupported (kind v) None) b v)) = RErr err').
  { intros k v. cbn. destruct (put_bytes _ _ _); cbn; [|by eauto|done|done].
    destruct v; cbn; eauto. }
  assert (Hd : forall k v, build e (KDecrementBy k v) = RErr err -> exists err',
    (rbind (put_bytes e (builder_new_kt CDecrementBy (Some (kind v))) k) (fun b =>
     if not_number v then RErr (CEKeyTypeUnsupported (kind v) None) else put_value e b v)) = RErr err').
  { intros k v. cbn. destruct (put_bytes _ _ _); cbn; [|by eauto|done|done].
    destruct (not_number v); eauto. }
  assert (Hi : forall k v, build e (KIncrementBy k v) = RErr err -> exists err',
    (if not_number v then RErr (CEKeyTypeUnsupported (kind v) None)
     else rbind (put_bytes e (builder_new_kt CIncrementBy (Some (kind v))) k) (fun b =>
          put_value e b v)) = RErr err').
  { intros k v. cbn. destruct (not_number v); eauto. }
  assert (Hm : forall A b (f : value -> client_res A), (exists err', b = RErr err') ->
    exists err', srv_method e n b f = ([], RErr err')).
  { intros A b f [err' ->]. by exists err'. }
  destruct c; cbn [srv_call as_sent] in *;
    unfold srv_append, srv_decrement, srv_decrement_by, srv_delete, srv_echo,
      srv_exists, srv_get, srv_increment, srv_increment_by, srv_is, srv_key_type, srv_keys,
      srv_length, srv_rename, srv_set, srv_stats;
    rewrite ?to_kind_method, with_reply_to_method; apply Hm;
    first [by apply Ha | by apply Hd | by apply Hi
          | by apply (Hd k (VInteger (default 1%Z n0)))
          | by apply (Hi k (VInteger (default 1%Z n0)))
          | by apply (Hd k (VFloat (default f64_one x)))
          | by apply (Hi k (VFloat (default f64_one x)))
          | exists err; exact Hb].
Qed.

(** ** The statistics a client reads *)

Lemma stats_int_spec d m z :
  i64_range z -> d !! metric_name m = Some (i64_enc z) -> stats_int d m = z.
Proof.
  intros Hz Hm. unfold stats_int. rewrite Hm. unfold lenN. rewrite i64_enc_len.
  change (N.of_nat 8 =? 8)%N with true. by apply i64_dec_enc.
Qed.

(** ** The keys of Exists and Is *)

Lemma checked_keys_spec l :
  match checked_keys l with
  | inl NoKeys => l = []
  | inl TooManyKeys => (255 < lenN l)%N
  | inr l' => l' = l /\ (1 <= lenN l <= 255)%N
  end.
Proof.
  unfold checked_keys. destruct l as [|a l]; [done|]. rewrite lenN_cons.
  destruct (255 <? _)%N eqn:E; [lia|]. split; [done|lia].
Qed.

(** ** For the examples: checks that compute *)

Definition ok_value (v : value) : bool :=
  match v with
  | VFloat n => (n <? u64_mod)%N
  | VInteger z => bool_decide (i64_range z)
  | VString s => utf8_valid s && (5 + lenN s <? u32_mod)%N
  | VBytes b => negb (is_empty b) && (5 + lenN b <? u32_mod)%N
  | VList l => negb (lenN l =? 0)%N && (lenN l <? u16_mod)%N && (1 + lenN (payload_list l) <? u32_mod)%N
  | VMap m => negb (size m =? 0)%nat && (N.of_nat (size m) <? u16_mod)%N
      && forallb (fun kv => lenN kv.1 <? 256)%N (map_to_list m)
      && (1 + lenN (payload_map (map_to_list m)) <? u32_mod)%N
  | VSet s => negb (size s =? 0)%nat && (N.of_nat (size s) <? u16_mod)%N
      && forallb (fun x => lenN x <? u16_mod)%N (elements s)
      && (1 + lenN (payload_set (elements s)) <? u32_mod)%N
  | VBoolean _ => true
  end.

Lemma ok_value_sound v : ok_value v = true -> sound v /\ v <> VMap ∅.
Proof.
  unfold sound. destruct v as [x|bs|y|z|items|m|st|str]; cbn; intros H.
  - by split_and!.
  - apply andb_true_iff in H as [H1 H2]. split_and!; try done; [lia|]. by intros [= ->].
  - split_and!; try done. lia.
  - apply bool_decide_eq_true in H. by split_and!.
  - apply andb_true_iff in H as [[H1 H2]%andb_true_iff H3]. split_and!; try done; try lia.
    by intros [= ->].
  - apply andb_true_iff in H as [[[H1 H2]%andb_true_iff H3]%andb_true_iff H4].
    split_and!; try done; try lia.
    + intros k v Hk. rewrite forallb_forall in H3. specialize (H3 (k, v)).
      rewrite <-elem_of_list_In, elem_of_map_to_list in H3. specialize (H3 Hk). cbn in H3. lia.
    + intros [= ->]. by rewrite map_size_empty in H1.
  - apply andb_true_iff in H as [[[H1 H2]%andb_true_iff H3]%andb_true_iff H4].
    split_and!; try done; try lia.
    + intros k Hk. rewrite forallb_forall in H3. specialize (H3 k).
      rewrite <-elem_of_list_In, elem_of_elements in H3. specialize (H3 Hk). cbn in H3. lia.
    + intros [= ->]. by rewrite size_empty in H1.
  - apply andb_true_iff in H as [H1 H2]. split_and!; try done; lia.
Qed.

Definition ok_keys (ks : keyspace) : bool := forallb (fun kv => ok_value kv.2) (map_to_list ks).

Lemma ok_keys_sound ks : ok_keys ks = true -> all_sound ks.
Proof.
  intros H k v Hk. apply ok_value_sound. unfold ok_keys in H. rewrite forallb_forall in H.
  apply (H (k, v)). by rewrite <-elem_of_list_In, elem_of_map_to_list.
Qed.

Definition wf_value (v : value) : bool :=
  match v with
  | VFloat n => (n <? u64_mod)%N
  | VInteger z => bool_decide (i64_range z)
  | VString s => utf8_valid s
  | _ => true
  end.

Lemma wf_value_wf v : wf_value v = true -> value_wf v.
Proof. destruct v; cbn; try done; [lia|by intros ?%bool_decide_eq_true]. Qed.

Definition ok_names (c : client_call) : bool :=
  forallb (fun k => lenN k <? 2 ^ 32 - 16)%N (named c) &&
  (negb (refuses_reserved c)
   || forallb (fun k => negb (bool_decide (take 8 k = lit "__hop__:"))) (named c)) &&
  match carried c with Some v => wf_value v | None => true end.

Definition ok_range (a : option (bytes * Z)) (ks : keyspace) : bool :=
  match a with
  | Some (k, n) => bool_decide (i64_range n) &&
      match default (VInteger 0) (ks !! k) with VInteger z => bool_decide (i64_range (z + n)) | _ => true end
  | None => true
  end.

Definition ok_call (c : client_call) (i : ideal) : bool :=
  (sends c <=? 255)%N && ok_names c && ok_range (adds c) (i_keys i)
  && ok_keys (i_keys (map_call c i).1) &&
  match c with
  | KIncrementBy _ (VFloat _) | KDecrementBy _ (VFloat _) | KIncrementFloat _ _
  | KDecrementFloat _ _ => false
  | KIncrement k (Some KTFloat) | KDecrement k (Some KTFloat) => is_present (i_keys i) k
  | KGetTyped k t => match i_keys i !! k with Some v => bool_decide (kind v = t) | None => true end
  | _ => true
  end.

Lemma ok_names_spec c : ok_names c = true ->
  Forall (fun k => (lenN k < 2 ^ 32 - 16)%N) (named c) /\
  (refuses_reserved c = true -> Forall (fun k => ~ reserved k) (named c)) /\
  (forall v, carried c = Some v -> value_wf v).
Proof.
  unfold ok_names. intros [[H1 H2]%andb_true_iff H3]%andb_true_iff. split_and!.
  - rewrite forallb_forall in H1. apply Forall_forall. intros k Hk.
    specialize (H1 k). rewrite <-elem_of_list_In in H1. specialize (H1 Hk). lia.
  - intros Hr. rewrite Hr in H2. cbn in H2. rewrite forallb_forall in H2. apply Forall_forall.
    intros k Hk [r ->]. specialize (H2 (lit "__hop__:" ++ r)). rewrite <-elem_of_list_In in H2.
    specialize (H2 Hk). cbn in H2. done.
  - intros v Hv. rewrite Hv in H3. by apply wf_value_wf.
Qed.

Lemma ok_call_within c i : ok_call c i = true -> within c i /\ regular c (i_keys i).
Proof.
  unfold ok_call.
  intros [[[[H1 H2]%andb_true_iff H3]%andb_true_iff H4]%andb_true_iff H5]%andb_true_iff.
  apply ok_names_spec in H2 as (Ha & Hb & Hc). apply ok_keys_sound in H4.
  split.
  - unfold within. split_and!; try done; [lia|].
    intros k n Hk. rewrite Hk in H3. cbn in H3. apply andb_true_iff in H3 as [Hn Hz].
    apply bool_decide_eq_true in Hn. split; [done|]. intros z Hzz. rewrite Hzz in Hz.
    by apply bool_decide_eq_true in Hz.
  - destruct c; cbn; try done; try (by destruct v);
      try (by destruct t as [[]|]; try done; unfold is_present in H5; destruct (i_keys i !! k)).
    intros v Hv. rewrite Hv in H5. by apply bool_decide_eq_true in H5.
Qed.

Fixpoint ok_calls (h : list client_call) (i : ideal) : bool :=
  match h with [] => true | c :: h => ok_call c i && ok_calls h (map_call c i).1 end.

Lemma ok_calls_within e h : env_ok e -> forall i, ok_calls h i = true ->
  all_within (map (fun c => (e, c)) h) i.
Proof.
  intros He. induction h as [|c h IH]; intros i; [done|]. cbn.
  intros [[H1 H2]%ok_call_within H3]%andb_true_iff. split_and!; try done. by apply IH.
Qed.

Definition ok_valid (c : client_call) (ks : keyspace) : bool :=
  (sends c <=? 255)%N && ok_names c && ok_range (amount c) ks && ok_keys (act 0 0 c ks).1.

Lemma ok_valid_valid c ks : ok_valid c ks = true -> valid c ks /\ adds_up c ks.
Proof.
  unfold ok_valid. intros [[[H1 H2]%andb_true_iff H3]%andb_true_iff H4]%andb_true_iff.
  apply ok_names_spec in H2 as (Ha & Hb & Hc). apply ok_keys_sound in H4. split.
  - unfold valid. split_and!; try done; lia.
  - intros k n Hk. rewrite Hk in H3. cbn in H3. apply andb_true_iff in H3 as [Hn Hz].
    apply bool_decide_eq_true in Hn. split; [done|]. intros z Hzz. rewrite Hzz in Hz.
    by apply bool_decide_eq_true in Hz.
Qed.
