(** The lemmas behind C108. *)
From Verif Require Import Bytes BytesFacts Value CommandId Request RequestSpec RequestFacts RequestProps
  BuilderSpec BuilderFacts Prog Commands EngineSpec WireSpec HistorySpec EngineFacts EngineProps
  Client ClientSpec ClientFacts ClientProps TooManySpec.
From stdpp Require Import gmap list.
From Coq Require Import NArith ZArith Lia.
From Coq Require Import ZifyBool ZifyNat ZifyN.

Lemma nonempty_all l : existsb is_empty l = false -> before_empty l = l.
Proof.
  induction l as [|[|b x] l IH]; cbn; [done|done|]. intros H. by rewrite IH.
Qed.

Lemma put_exact e c kt l a : a <> [] -> (lenN l <= BuilderSpec.room e)%N ->
  put_bytes e (built c kt l) a =
  if (BuilderSpec.room e <? lenN (l ++ [a]))%N then RPanic else ROk (built c kt (l ++ [a])).
Proof.
  intros Ha Hl. unfold put_bytes, builder_bytes. destruct a as [|b a]; [done|].
  rewrite push_exact by done. by destruct (BuilderSpec.room e <? _)%N.
Qed.

Lemma put_all_exact e c kt l' : forall l, existsb is_empty l' = false -> (lenN l <= BuilderSpec.room e)%N ->
  put_all e (built c kt l) l' =
  if (BuilderSpec.room e <? lenN (l ++ l'))%N then RPanic else ROk (built c kt (l ++ l')).
Proof.
  induction l' as [|a l' IH]; intros l Hx Hl; cbn [put_all].
  - rewrite app_nil_r. by replace (BuilderSpec.room e <? lenN l)%N with false by lia.
  - cbn [existsb] in Hx. apply orb_false_iff in Hx as [Ha Hx].
    rewrite put_exact by (done || by apply is_empty_false).
    destruct (N.ltb_spec (BuilderSpec.room e) (lenN (l ++ [a]))) as [H|H]; cbn [rbind].
    + rewrite lenN_app, lenN_one in H. rewrite lenN_app, lenN_cons.
      by replace (BuilderSpec.room e <? lenN l + (1 + lenN l'))%N with true by lia.
    + rewrite IH by done. by rewrite <-app_assoc.
Qed.

Lemma put_value_exact e c kt k v : env_ok e -> value_empty v = false -> (255 < 1 + value_arity v)%N ->
  put_value e (built c kt [k]) v =
  if (item_count v mod 256 =? 255)%N then RErr (CEBuildingRequest BETooManyArguments) else RPanic.
Proof.
  intros He Hv Hn. unfold put_value.
  assert (Hr : (lenN [k] <= BuilderSpec.room e)%N) by (unfold BuilderSpec.room; change (lenN [k]) with 1%N; by destruct (debug e)).
  pose proof (builder_do_exact e c kt [k] (CallValue v) He Hr) as H.
  cbn [builder_do] in H. rewrite H. clear H.
  change (lenN [k] mod 256)%N with 1%N.
  assert (Hc : counted (CallValue v) = item_count v) by (by destruct v). rewrite Hc.
  pose proof (N.mod_lt (item_count v) 256 ltac:(done)) as Hlt.
  destruct (N.eqb_spec (item_count v mod 256) 255) as [E|E].
  { by replace (255 <? 1 + item_count v mod 256)%N with true by lia. }
  replace (255 <? 1 + item_count v mod 256)%N with false by lia.
  assert (Hl : lenN (pushed e (CallValue v)) = value_arity v).
  { rewrite <-(value_args_arity e v) by done. f_equal.
    destruct v as [x|[]|y|z|items|m|st|[]]; try done. cbn [pushed value_args]. apply nonempty_all.
    exact Hv. }
  assert (H256 : (256 < 1 + value_arity v)%N).
  { destruct v as [x|bs|y|z|items|m|st|str]; cbn in Hn, E |- *; try lia. }
  rewrite lenN_app, Hl. change (lenN [k]) with 1%N.
  by replace (BuilderSpec.room e <? 1 + value_arity v)%N with true by (unfold BuilderSpec.room; destruct (debug e); lia).
Qed.

(** What is built when there are too many arguments. *)
Definition overdone (c : client_call) : client_res builder :=
  if reports c then RErr (CEBuildingRequest BETooManyArguments) else RPanic.

Lemma one_fits e : (lenN ([] : list bytes) <= BuilderSpec.room e)%N.
Proof. unfold BuilderSpec.room. rewrite lenN_nil. destruct (debug e); lia. Qed.

Lemma key_first e cmd kt k : k <> [] -> is_simple cmd = false ->
  put_bytes e (builder_new_kt cmd kt) k = ROk (built cmd kt [k]).
Proof.
  intros Hk Hc. rewrite builder_new_kt_built by done. by rewrite put_bytes_built.
Qed.

Lemma list_build e cmd kt l0 l : existsb is_empty l = false -> (lenN l0 <= 1)%N ->
  (255 < lenN l0 + lenN l)%N ->
  put_all e (built cmd kt l0) l =
  if negb (debug e) && (lenN l0 + lenN l =? 256)%N then ROk (built cmd kt (l0 ++ l)) else RPanic.
Proof.
  intros Hx Hl0 Hl. rewrite put_all_exact by (try done; unfold BuilderSpec.room; destruct (debug e); lia).
  rewrite lenN_app. unfold BuilderSpec.room. destruct (debug e); cbn [negb andb].
  - by replace (255 <? lenN l0 + lenN l)%N with true by lia.
  - destruct (N.eqb_spec (lenN l0 + lenN l) 256) as [->|]; [done|].
    by replace (256 <? lenN l0 + lenN l)%N with true by lia.
Qed.

(** The request of a call, or what it ends with, on both backends. *)
Lemma build_over e c : env_ok e -> (255 < sends c)%N -> refused c = None ->
  if slips_through e c then exists b, build e c = ROk b /\ makes e c b
  else build e c = overdone c.
Proof.
  intros He Hs Hr. unfold slips_through, overdone.
  assert (Hlist : forall cmd kt l, is_simple cmd = false -> (255 < lenN l)%N ->
    existsb is_empty l = false ->
    put_all e (builder_new_kt cmd kt) l =
    if negb (debug e) && (lenN l =? 256)%N then ROk (built cmd kt l) else RPanic).
  { intros cmd kt l Hc Hl Hx. rewrite builder_new_kt_built by done.
    rewrite list_build; [done|done|by rewrite lenN_nil|rewrite lenN_nil; lia]. }
  assert (Happ : forall k v, refused (KAppend k v) = None -> (255 < 1 + value_arity v)%N ->
    build e (KAppend k v) =
    if negb (debug e) && (1 + value_arity v =? 256)%N
    then ROk (built CAppend (Some (kind v)) (k :: value_args e v)) else RPanic).
  { intros k v Hrf Hn. cbn in Hrf |- *. destruct (is_empty k) eqn:Hk; [done|].
    rewrite key_first by (try done; by apply is_empty_false). cbn [rbind].
    destruct v as [x|bs|y|z|items|m|st|str]; cbn in Hrf, Hn |- *; try done; try lia.
    destruct (existsb is_empty items) eqn:Hx; [done|].
    rewrite list_build; [|done|done|done]. done. }
  assert (Hset : forall k v, refused (KSet k v) = None -> (255 < 1 + value_arity v)%N ->
    build e (KSet k v) =
    if (item_count v mod 256 =? 255)%N then RErr (CEBuildingRequest BETooManyArguments) else RPanic).
  { intros k v Hrf Hn. cbn in Hrf |- *. destruct (is_empty k) eqn:Hk; [done|].
    rewrite key_first by (try done; by apply is_empty_false). cbn [rbind].
    destruct (value_empty v) eqn:Hv; [done|]. by apply put_value_exact. }
  destruct c; cbn [sends reports] in *; try lia.
  all: rewrite ?andb_true_r, ?andb_false_r.
  all: try (first [change (build e (KAppendTyped k v)) with (build e (KAppend k v))|idtac];
    rewrite (Happ k v Hr Hs); destruct (negb (debug e) && _)%N; [by eexists|done]).
  all: try (first [change (build e (KSetTyped k v)) with (build e (KSet k v))|idtac];
    by rewrite (Hset k v Hr Hs)).
  all: cbn in Hr; destruct (existsb is_empty keys) eqn:Hx; [done|]; cbn [build].
  - change (builder_new CExists) with (builder_new_kt CExists None).
    rewrite Hlist by done. destruct (negb (debug e) && _)%N; [by eexists|done].
  - rewrite Hlist by done. destruct (negb (debug e) && _)%N; [by eexists|done].
Qed.

Lemma srv_build e n c : env_ok e -> (255 < sends c)%N -> refused c = None ->
  exists f, srv_call e n c = srv_method e n (build e c) f.
Proof.
  intros He Hs Hr.
  assert (Happ : forall k v, refused (KAppend k v) = None ->
    (rbind (put_bytes e (builder_new_kt CAppend (Some (kind v))) k) (fun b =>
     put_appended e (CEKeyTypeUnsupported (kind v) None) b v)) = build e (KAppend k v)).
  { intros k v Hrf. cbn in Hrf |- *. destruct (put_bytes _ _ _); [|done..]. cbn [rbind].
    destruct (is_empty k); [done|]. by destruct v. }
  destruct c; cbn [sends] in Hs; try lia; cbn [srv_call];
    unfold srv_append, srv_exists, srv_is, srv_set;
    rewrite ?to_kind_method, with_reply_to_method; eexists;
    first [rewrite (Happ _ _ Hr); reflexivity|reflexivity].
Qed.

Lemma c108_nothing e s n c :
  env_ok e -> (255 < sends c)%N -> refused c = None -> slips_through e c = false ->
  let r := if reports c then RErr (CEBuildingRequest BETooManyArguments) else RPanic in
  mem_call e s c = (s, r) /\ srv_call e n c = ([], r).
Proof.
  intros He Hs Hr Hsl. pose proof (build_over e c He Hs Hr) as Hb. rewrite Hsl in Hb.
  rewrite mem_call_method. destruct (srv_build e n c He Hs Hr) as [f ->]. rewrite Hb.
  unfold overdone. by destruct (reports c).
Qed.

Lemma c108_slips e n c :
  env_ok e -> slips_through e c = true -> refused c = None -> n_write_ok n = true ->
  Forall (fun a => lenN a < 2 ^ 32)%N (request_of e c).2 ->
  srv_call e n c = (wire_head (request_of e c).1.1 (request_of e c).1.2 ++ [n2b 0]
    ++ concat (map wire_arg (request_of e c).2), RErr CEConnectionClosed).
Proof.
  intros He Hsl Hr Hn Hl.
  assert (Hs : sends c = 256%N).
  { unfold slips_through in Hsl. apply andb_prop in Hsl as [[_ H]%andb_prop _]. lia. }
  pose proof (build_over e c He ltac:(lia) Hr) as Hb. rewrite Hsl in Hb. destruct Hb as (b & Hb & Hm).
  destruct (srv_build e n c He ltac:(lia) Hr) as [f ->]. rewrite Hb. unfold srv_method.
  rewrite closed_at_once, Hn.
  rewrite (makes_wire e c b Hm Hl).
  assert (H256 : lenN (request_of e c).2 = 256%N /\ (request_of e c).1.1 <> CStats).
  { rewrite <-Hs. destruct c; cbn [sends] in *; try lia; cbn [request_of fst snd]; try done;
      rewrite lenN_cons, value_args_arity by done; done. }
  destruct H256 as [H256 Hst]. unfold wire_call. destruct (request_of e c) as [[cmd kt] l].
  cbn [fst snd] in *. unfold wire_request. rewrite H256. change (n2b 256) with (n2b 0).
  by destruct cmd.
Qed.

Lemma none_empty l : Forall (fun k => k <> []) l -> existsb is_empty l = false.
Proof.
  induction 1 as [|k l Hk _ IH]; [done|]. cbn [existsb]. rewrite IH.
  destruct (is_empty k) eqn:E; [|done]. by apply is_empty_true in E.
Qed.

Lemma c108_panics e s n l :
  env_ok e -> (256 < lenN l)%N -> Forall (fun k => k <> []) l ->
  mem_call e s (KExists l) = (s, RPanic) /\ srv_call e n (KExists l) = ([], RPanic).
Proof.
  intros He Hl Hne. apply (c108_nothing e s n (KExists l)); try done.
  - cbn [sends]. lia.
  - cbn. by rewrite none_empty.
  - unfold slips_through. cbn [sends]. replace (lenN l =? 256)%N with false by lia.
    by rewrite andb_false_r.
Qed.

Lemma c108_exists e s l :
  env_ok e -> debug e = false -> room s -> lenN l = 256%N -> Forall (fun k => k <> []) l ->
  (mem_call e s (KExists l)).2 =
    ROk (RpBool (forallb (fun k => bool_decide (is_Some (st_keys s !! k))) l)) /\
  st_keys (mem_call e s (KExists l)).1 = st_keys s.
Proof.
  intros He Hd Hr Hl Hne.
  assert (Hx : refused (KExists l) = None).
  { cbn. by rewrite none_empty. }
  assert (Hp : forall l, forallb (fun k => bool_decide (is_Some (st_keys s !! k))) l =
    forallb (is_present (st_keys s)) l).
  { intros l'. induction l' as [|k l' IH]; [done|]. cbn [forallb]. rewrite IH. f_equal. unfold is_present.
    by destruct (st_keys s !! k) eqn:E; [apply bool_decide_eq_true_2; eauto|
      apply bool_decide_eq_false_2; intros [? ?]]. }
  rewrite Hp.
  pose proof (build_over e (KExists l) He ltac:(cbn [sends]; lia) Hx) as Hb.
  unfold slips_through in Hb. cbn [sends] in Hb. rewrite Hd, Hl in Hb. cbn [negb andb N.eqb Pos.eqb] in Hb.
  destruct Hb as (b & Hb & Hm). rewrite mem_call_method, Hb.
  apply makes_asks in Hm. cbn [request_of] in Hm. destruct Hm as (Hc & Hkt & Hq).
  destruct (dispatch_answered e s (into_request b) [] l He Hq Hr) as [Ha Hks].
  cbn zeta in Ha, Hks. rewrite Hc, Hkt in Ha, Hks.
  destruct l as [|k l]; [done|]. cbn [spec_command] in Ha, Hks. cbn [fst snd answered] in Ha, Hks.
  unfold mem_method.
  destruct (responds_sound e s b _ (sound_bool _) Ha) as (s' & -> & Hs' & Hok & _).
  assert (Hks' : st_keys s' = st_keys s).
  { rewrite Hs'. apply Hks. intros Hpan. by rewrite Hpan in Hok. }
  cbn [opened or_panic as_boolean rbind fst snd]. done.
Qed.
