(** Every command is safe: what it may write and how it may end, for arbitrary
    requests. *)
From Coq Require Import String.
From Verif Require Import Bytes BytesFacts Utf8 Float64 FloatFacts Value CommandId Request
  Response RespContext Metrics Prog Commands EngineSpec WireSpec RequestSpec HistorySpec
  ProgFacts CommandFacts.
From stdpp Require Import gmap list.
From Coq Require Import NArith ZArith Lia.
From Coq Require Import ZifyBool ZifyNat ZifyN.

Definition touched (req : request) (k : bytes) : Prop :=
  read_only (r_command req) = false /\ names req k.

(** How a command may end. *)
Definition ends (e : env) (req : request) (res : bytes) (r : cres) : Prop :=
  match r with
  | COk b => exists x, b = res ++ x
  | CErr _ b => b = res
  | CPanic => debug e = true \/
              (guarded_command (r_command req) = true /\
               exists k, arg req 0 = Some k /\ reserved k)
  end.

Lemma reserved_starts k : starts_with k reserved_prefix = true <-> reserved k.
Proof. apply starts_with_spec. Qed.

Section safe_commands.
  Context (e : env) (req : request) (res : bytes).

  Notation safe' := (safe (touched req) value_wf (ends e req res)).

  Lemma ends_write_value v : ends e req res (cres_of (write_value e res v)).
  Proof.
    destruct (write_value e res v) as [b|] eqn:H.
    - cbn. by eapply write_value_app.
    - destruct (debug e) eqn:Hd; [by left|].
      destruct (copy_to_release e (RValue v) res Hd) as [b Hb]. cbn in Hb. congruence.
  Qed.

  Lemma ends_write_list l : ends e req res (cres_of (write_list e res l)).
  Proof. apply (ends_write_value (VList l)). Qed.
  Lemma ends_write_bytes b : ends e req res (cres_of (write_bytes e res b)).
  Proof. apply (ends_write_value (VBytes b)). Qed.
  Lemma ends_write_str b : ends e req res (cres_of (write_str e res b)).
  Proof. apply (ends_write_value (VString b)). Qed.
  Lemma ends_write_map m : ends e req res (cres_of (write_map e res m)).
  Proof. apply (ends_write_value (VMap m)). Qed.
  Lemma ends_write_int z : ends e req res (COk (write_int res z)).
  Proof. apply (ends_write_value (VInteger z)). Qed.
  Lemma ends_write_bool z : ends e req res (COk (write_bool res z)).
  Proof. apply (ends_write_value (VBoolean z)). Qed.
  Lemma ends_write_float z : ends e req res (COk (write_float res z)).
  Proof. apply (ends_write_value (VFloat z)). Qed.
  Lemma ends_err err : ends e req res (CErr err res).
  Proof. done. Qed.

  (** An outcome of [write_*], by its cases. *)
  Lemma ends_ok v b : write_value e res v = Ok b -> ends e req res (COk b).
  Proof. intros H. pose proof (ends_write_value v) as Hv. by rewrite H in Hv. Qed.
  Lemma ends_panic v : write_value e res v = Panic -> ends e req res CPanic.
  Proof. intros H. pose proof (ends_write_value v) as Hv. by rewrite H in Hv. Qed.

  Lemma key_arg k : key req = Some k -> arg req 0 = Some k.
  Proof. unfold key. by destruct (key_notation_of _). Qed.

  Lemma guard_panic k :
    guarded_command (r_command req) = true -> arg req 0 = Some k ->
    starts_with k reserved_prefix = true \/ debug e = true -> ends e req res CPanic.
  Proof.
    intros Hg Ha [H|H]; cbn; [|by left]. right. split; [done|]. exists k.
    split; [done|]. by apply reserved_starts.
  Qed.

  Lemma touched_arg0 k :
    read_only (r_command req) = false -> arg req 0 = Some k -> touched req k.
  Proof. intros H1 H2. split; [done|by left]. Qed.

  Lemma safe_koi k d u :
    read_only (r_command req) = false -> guarded_command (r_command req) = true ->
    arg req 0 = Some k -> value_wf d ->
    (forall v, value_wf v -> value_wf (u v).1 /\ ends e req res (u v).2) ->
    safe' (key_or_insert_with e k d u).
  Proof.
    intros Hr Hg Ha Hd Hu. unfold key_or_insert_with.
    apply safe_guarded; [|by eapply guard_panic].
    cbn. split; [by apply touched_arg0|]. done.
  Qed.

  Lemma safe_key_ref k c :
    guarded_command (r_command req) = true -> arg req 0 = Some k ->
    (forall v, opt_ok value_wf v -> safe' (c v)) -> safe' (key_ref e k c).
  Proof.
    intros Hg Ha Hc. unfold key_ref. apply safe_guarded; [|by eapply guard_panic]. done.
  Qed.

  Lemma safe_read_variant {A} k (as_ : value -> option A) c :
    guarded_command (r_command req) = true -> arg req 0 = Some k ->
    (forall a, ends e req res (c a)) -> safe' (read_variant e res k as_ c).
  Proof.
    intros Hg Ha Hc. apply safe_key_ref; [done|done|]. intros [v|] _; [|done].
    destruct (as_ v); [apply Hc|done].
  Qed.

  Lemma safe_resolve k d c :
    (forall t, safe' (c t)) -> safe' (resolve_type req k d c).
  Proof. intros Hc. unfold resolve_type. destruct (r_key_type req); [done|]. cbn. intros. apply Hc. Qed.

  Lemma with_variant_ok {A} (as_ : value -> option A) v f :
    value_wf v ->
    (forall a, as_ v = Some a -> value_wf (f a).1 /\ ends e req res (f a).2) ->
    value_wf (with_variant res as_ v f).1 /\ ends e req res (with_variant res as_ v f).2.
  Proof. intros Hv Hf. unfold with_variant. destruct (as_ v); [by apply Hf|done]. Qed.

  Lemma safe_append : r_command req = CAppend -> safe' (cmd_append e req res).
  Proof.
    intros Hc. unfold cmd_append. destruct (arg req 0) as [k|] eqn:Ha; [|done].
    destruct (args_from req 1) as [a|]; [|done].
    apply safe_resolve. intros t. destruct t; try done.
    - apply safe_koi; rewrite ?Hc; try done. intros v Hv. apply with_variant_ok; [done|].
      intros. split; [done|]. apply ends_write_bytes.
    - apply safe_koi; rewrite ?Hc; try done. intros v Hv. apply with_variant_ok; [done|].
      intros s Hs. destruct v; try done. cbn in Hs. injection Hs as ->.
      split; [|apply ends_write_str]. by apply push_valid_utf8.
    - apply safe_koi; rewrite ?Hc; try done. intros v Hv. apply with_variant_ok; [done|].
      intros. split; [done|]. apply ends_write_list.
  Qed.

  Lemma safe_add_float k x :
    read_only (r_command req) = false -> guarded_command (r_command req) = true ->
    arg req 0 = Some k -> safe' (increment_float_by e k x res).
  Proof.
    intros Hr Hg Ha. apply safe_koi; try done. intros v Hv. apply with_variant_ok; [done|].
    intros f _. split; [|apply ends_write_float]. apply f64_add_lt.
  Qed.

  Lemma safe_add_int k n :
    read_only (r_command req) = false -> guarded_command (r_command req) = true ->
    arg req 0 = Some k -> safe' (increment_int_by e k n res).
  Proof.
    intros Hr Hg Ha. apply safe_koi; try done. intros v Hv. apply with_variant_ok; [done|].
    intros z Hz. destruct (i64_checked _ _) as [z'|] eqn:Hi.
    - split; [|apply ends_write_int]. by eapply i64_checked_range.
    - split; [by destruct v; try done; injection Hz as ->|]. left.
      unfold i64_checked in Hi. by destruct (_ && _), (debug e).
  Qed.

  Lemma safe_set_with {A} k d (as_ : value -> option A) new kept out :
    r_command req = CSet -> arg req 0 = Some k -> value_wf d -> value_wf new ->
    (forall b, out = Ok b -> ends e req res (COk b)) ->
    (out = Panic -> ends e req res CPanic) ->
    safe' (set_with e res k d as_ new kept out).
  Proof.
    intros Hc Ha Hd Hn Ho Hp. unfold set_with. cbn.
    split; [apply touched_arg0; [by rewrite Hc|done]|]. intros _ _.
    apply safe_koi; rewrite ?Hc; try done. intros v Hv. apply with_variant_ok; [done|].
    intros a _. destruct out as [b|]; cbn [fst snd].
    - split; [done|]. by apply Ho.
    - split; [by destruct kept|]. by apply Hp.
  Qed.

  Lemma safe_all_exist l c : (forall b, safe' (c b)) -> safe' (all_exist l c).
  Proof. intros Hc. induction l as [|k l IH]; cbn; [apply Hc|]. intros []; [done|apply Hc]. Qed.

  Lemma safe_all_are t l c : (forall b, safe' (c b)) -> safe' (all_are t l c).
  Proof.
    intros Hc. induction l as [|k l IH]; cbn; [apply Hc|]. intros v _.
    destruct (match v with Some _ => _ | None => _ end); [done|apply Hc].
  Qed.

  Lemma safe_stats_loop l m c : (forall m, safe' (c m)) -> safe' (stats_loop l m c).
  Proof.
    intros Hc. revert m. induction l as [|x l IH]; intros m; cbn; [apply Hc|].
    intros [n|]; [destruct (_ <? _)%Z; apply IH|apply IH].
  Qed.

  Lemma typed_arg_some {A} (f : bytes -> option A) i a :
    typed_arg f req i = Some a -> exists b, f b = Some a.
  Proof. unfold typed_arg. destruct (arg req i); cbn; [eauto|done]. Qed.

  Lemma safe_set_typed k t :
    r_command req = CSet -> arg req 0 = Some k -> safe' (set_typed e req res k t).
  Proof.
    intros Hc Ha. unfold set_typed. destruct t.
    all: match goal with |- safe _ _ _ (match ?x with Some _ => _ | None => _ end) =>
      destruct x as [a|] eqn:E end; [|done].
    all: apply safe_set_with; try done.
    all: try (intros b [= <-]).
    all: try (intros b; first [apply (ends_ok (VBytes a))|apply (ends_ok (VString a))
      |apply (ends_ok (VList (arguments_collect a)))|apply (ends_ok (VMap a))
      |apply (ends_ok (VSet a))]; fail).
    all: try (first [apply (ends_panic (VBytes a))|apply (ends_panic (VString a))
      |apply (ends_panic (VList (arguments_collect a)))|apply (ends_panic (VMap a))
      |apply (ends_panic (VSet a))]; fail).
    - apply ends_write_bool.
    - destruct (typed_arg_some _ _ _ E) as [b Hb]. rewrite convert_f64_spec in Hb.
      unfold arg_float in Hb. destruct (8 <=? length b)%nat eqn:Hl; [|done].
      injection Hb as <-. cbn. pose proof (be_dec_lt (take 8 b)) as H.
      replace (lenN (take 8 b)) with 8%N in H; [exact H|].
      unfold lenN. rewrite take_length. lia.
    - apply ends_write_float.
    - destruct (typed_arg_some _ _ _ E) as [b Hb]. rewrite convert_i64_spec in Hb.
      unfold arg_int in Hb. destruct (8 <=? length b)%nat eqn:Hl; [|done].
      injection Hb as <-. apply i64_dec_range. rewrite take_length. lia.
    - apply ends_write_int.
    - destruct (typed_arg_some _ _ _ E) as [b Hb]. unfold convert_str, from_utf8 in Hb.
      destruct (utf8_valid b) eqn:Hu; [|done]. by injection Hb as <-.
  Qed.

  Lemma command_safe : safe' (command_prog e req res).
  Proof.
    unfold command_prog. destruct (r_command req) eqn:Hc.
    - unfold cmd_increment. destruct (key req) as [k|] eqn:Hk; [|done]. apply key_arg in Hk.
      destruct (wants_float req); [apply safe_add_float|apply safe_add_int]; by rewrite ?Hc.
    - unfold cmd_decrement. destruct (key req) as [k|] eqn:Hk; [|done]. apply key_arg in Hk.
      destruct (wants_float req); [apply safe_add_float|apply safe_add_int]; by rewrite ?Hc.
    - unfold cmd_increment_by. destruct (key req) as [k|] eqn:Hk; [|done]. apply key_arg in Hk.
      destruct (typed_arg convert_i64 req 1) as [z|].
      + apply safe_add_int; by rewrite ?Hc.
      + destruct (typed_arg convert_f64 req 1); [|done]. apply safe_add_float; by rewrite ?Hc.
    - unfold cmd_decrement_by. destruct (key req) as [k|] eqn:Hk; [|done]. apply key_arg in Hk.
      destruct (typed_arg convert_i64 req 1) as [z|].
      + destruct (i64_checked _ _) eqn:Hi; [apply safe_add_int; by rewrite ?Hc|].
        left. unfold i64_checked in Hi. by destruct (_ && _), (debug e).
      + destruct (typed_arg convert_f64 req 1); [|done]. apply safe_add_float; by rewrite ?Hc.
    - unfold cmd_set. destruct (key req) as [k|] eqn:Hk; [|done]. apply key_arg in Hk.
      destruct (arg req 1); [|done]. apply safe_resolve. intros t. by apply safe_set_typed.
    - unfold cmd_get. destruct (key req) as [k|] eqn:Hk; [|done]. apply key_arg in Hk.
      apply safe_key_ref; [by rewrite Hc|done|]. intros [v|] Hv; [|done].
      destruct (r_key_type req) as [t|]; [destruct (decide _); [|done]|]; apply ends_write_value.
    - unfold cmd_delete. destruct (r_key_type req); [done|].
      destruct (key req) as [k|] eqn:Hk; [|done]. apply key_arg in Hk. cbn.
      split; [apply touched_arg0; by rewrite ?Hc|]. intros [v|] _; [|done]. apply ends_write_bytes.
    - unfold cmd_exists. destruct (r_key_type req); [done|]. destruct (args_all req); [|done].
      apply safe_all_exist. intros b. apply ends_write_bool.
    - unfold cmd_is. destruct (r_key_type req); [|done]. destruct (args_all req); [|done].
      apply safe_all_are. intros b. apply ends_write_bool.
    - unfold cmd_rename. destruct (r_key_type req); [done|].
      destruct (arg req 0) as [k|] eqn:Hk; [|done].
      destruct (arg req 1) as [a|] eqn:Ha; [|done]. cbn.
      intros []; [|done]. intros []; [done|]. split; [apply touched_arg0; by rewrite ?Hc|].
      intros [v|] Hv; [|done]. cbn. split; [split; [by rewrite Hc|by right]|].
      split; [by apply Hv|]. apply ends_write_bytes.
    - unfold cmd_type. destruct (key req) as [k|] eqn:Hk; [|done].
      destruct (r_key_type req); [done|]. cbn. intros [v|] _; [|done]. apply ends_write_int.
    - by apply safe_append.
    - unfold cmd_length. destruct (key req) as [k|] eqn:Hk; [|done]. apply key_arg in Hk.
      apply safe_resolve. intros []; try done;
        (apply safe_read_variant; [by rewrite Hc|done|intros; apply ends_write_int]).
    - unfold cmd_keys. destruct (key req) as [k|] eqn:Hk; [|done]. apply key_arg in Hk.
      apply safe_resolve. intros []; try done. apply safe_read_variant; [by rewrite Hc|done|].
      intros m. apply ends_write_list.
    - unfold cmd_echo. destruct (args_all req); apply ends_write_list.
    - unfold cmd_stats. destruct (r_key_type req); [done|].
      apply safe_stats_loop. intros m. apply ends_write_map.
  Qed.
End safe_commands.
