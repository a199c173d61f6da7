(** What the command line prints is text: proofs of C126. *)
From Coq Require Import String.
From Verif Require Import Bytes BytesFacts Utf8 Utf8Spec Utf8Facts Value CommandId IdsFacts Request
  RequestFacts Response RespContext RespContextFacts Metrics Prog Commands EngineSpec WireSpec RequestSpec HistorySpec Client ClientSpec
  ClientFacts ClientProps Cli CliSpec CliFacts CliProps FloatText.
From stdpp Require Import gmap list.
From Coq Require Import NArith ZArith Lia ZifyBool ZifyNat ZifyN.
From Coq.Init Require Import Byte.

Notation valid s := (utf8_valid s = true).

(** ** Texts *)

Lemma valid_app a b : valid a -> valid b -> valid (a ++ b).
Proof. intros Ha Hb. by rewrite utf8_valid_app. Qed.

Lemma valid_concat l : Forall (fun s => valid s) l -> valid (concat l).
Proof. induction 1; [done|]. cbn. by apply valid_app. Qed.

Lemma valid_ascii s : Forall (fun b => Utf8.in_range 0 127 b = true) s -> valid s.
Proof. induction 1 as [|b s Hb _ IH]; [done|]. cbn. by rewrite Hb. Qed.

Lemma uint_ascii d : Forall (fun b => Utf8.in_range 0 127 b = true) (uint_bytes d).
Proof. induction d; cbn; constructor; done. Qed.

Lemma valid_i64 z : valid (show_i64 z).
Proof.
  apply valid_ascii. unfold show_i64. apply Forall_app. split; [|apply uint_ascii].
  destruct (z <? 0)%Z; by repeat constructor.
Qed.

Lemma valid_float f : valid (show_float f).
Proof.
  apply valid_ascii. unfold show_float. cbv zeta.
  destruct (_ <? _)%N; [by repeat constructor|]. apply Forall_app. split; [destruct (N.testbit f 63); by repeat constructor|].
  destruct (_ =? _)%N; [by repeat constructor|]. destruct (_ =? _)%N; [by repeat constructor|].
  destruct (shortest _ _ _) as [d k]. unfold place_point. pose proof (uint_ascii (N.to_uint (Z.to_N d))) as H.
  set (ds := uint_bytes _) in *. clearbody ds.
  assert (Hz : forall n, Forall (fun b => Utf8.in_range 0 127 b = true) (replicate n x30)) by (intros n; by apply Forall_replicate).
  destruct (_ <=? _)%Z; [by apply Forall_app|]. destruct (_ <=? _)%Z.
  - apply Forall_app. split; [by repeat constructor|]. by apply Forall_app.
  - apply Forall_app. split; [by apply Forall_take|]. apply Forall_app. split; [by repeat constructor|by apply Forall_drop].
Qed.

(** A prefix that ends before a character. *)
Lemma valid_prefix s n b : valid s -> s !! n = Some b -> is_cont b = false -> valid (take n s).
Proof.
  intros Hv Hb Hc. destruct (valid_chars _ Hv) as (cs & Hs & ->). clear Hv.
  revert n Hb. induction Hs as [|c cs Hsc Hs IH]; intros n Hb; [done|]. cbn [map concat] in *.
  destruct (decide (n < length (utf8_encode c))) as [Hn|Hn].
  - destruct n as [|n]; [done|]. exfalso. rewrite lookup_app_l in Hb by done. clear IH.
    unfold is_scalar in Hsc. unfold utf8_encode in *.
    assert (Hcont : forall m, (128 <= m < 192)%N -> is_cont (n2b m) = true).
    { intros m Hm. unfold is_cont. rewrite in_range_n2b by lia. lia. }
    destruct (c <? 128)%N eqn:E1; [|destruct (c <? 2048)%N eqn:E2; [|destruct (c <? 65536)%N eqn:E3]]; cbn in Hb, Hn.
    + lia.
    + destruct n as [|n]; [|lia]. injection Hb as <-. rewrite Hcont in Hc; [done|lia].
    + destruct n as [|[|n]]; [| |lia]; injection Hb as <-; rewrite Hcont in Hc; done || lia.
    + destruct n as [|[|[|n]]]; [| | |lia]; injection Hb as <-; rewrite Hcont in Hc; done || lia.
  - rewrite lookup_app_r in Hb by lia. rewrite take_app_ge by lia.
    rewrite utf8_encode_valid by done. by apply IH.
Qed.

Lemma valid_truncate s n out : valid s -> truncate s n = Ok out -> valid out.
Proof.
  intros Hv. unfold truncate. destruct (_ <? _)%N; [by intros [= <-]|]. rewrite get_at_lookup.
  destruct (s !! N.to_nat n) as [b|] eqn:Hb; [|by intros [= <-]].
  destruct (is_cont b) eqn:Hc; [done|]. intros [= <-]. by eapply valid_prefix.
Qed.

Lemma valid_drop_two e s out : valid s -> drop_two e s = Ok out -> valid out.
Proof. intros Hv. unfold drop_two. destruct (usub _ _ _ _) as [n|]; [|done]. cbn. by apply valid_truncate. Qed.

Lemma valid_lines l : Forall (fun s => valid s) l -> valid (text_lines l).
Proof.
  intros H. apply valid_concat, Forall_map. eapply Forall_impl; [exact H|]. intros s Hs. by apply valid_app.
Qed.

Lemma valid_join c l : Utf8.in_range 0 127 c = true -> Forall (fun s => valid s) l -> valid (join_with [c] l).
Proof.
  intros Hc H. induction H as [|s l Hs Hl IH]; [done|]. cbn. destruct l; [done|].
  apply valid_app; [done|]. change (valid ([c] ++ join_with [c] (l :: l0))). apply valid_app; [|done]. cbn. by rewrite Hc.
Qed.

(** ** Values *)

Lemma value_valid e v out : (forall s, v = VString s -> valid s) -> print_value e rust_text v = Ok out -> valid out.
Proof.
  intros Hv. destruct v; cbn.
  - intros [= <-]. by destruct b.
  - intros [= <-]. apply lossy_spec.
  - intros [= <-]. apply valid_float.
  - intros [= <-]. apply valid_i64.
  - rewrite print_items_lines. apply valid_drop_two, valid_lines, Forall_map, Forall_forall. intros ? _. apply lossy_spec.
  - rewrite print_pairs_lines. apply valid_drop_two, valid_lines, Forall_map, Forall_forall. intros ? _. apply pair_text_valid.
  - rewrite print_items_lines. apply valid_drop_two, valid_lines, Forall_map, Forall_forall. intros ? _. apply lossy_spec.
  - intros [= <-]. by apply Hv.
Qed.

(** The strings of responses are texts. *)
Lemma feed_string dbg buf fuel x s : (resp_feed_fuel fuel dbg x buf).2 = PConcluded (RValue (VString s)) -> valid s.
Proof.
  revert x. induction fuel as [|fuel IH]; intros x; cbn; [done|].
  assert (Hstep : forall x', resp_step dbg x buf = Ok (x', GInstr (IConcluded (RValue (VString s)))) -> valid s).
  { intros x'. clear IH. unfold resp_step, resp_stage_init, resp_stage_determine, resp_stage_boolean, resp_stage_bytes,
      resp_stage_float, resp_stage_integer, resp_stage_list, resp_stage_map, resp_stage_set, resp_stage_string,
      resp_stage_type_init, resp_stage_dispatch_error, resp_stage_parse_error, assert_then, ask, conclude, obind.
    intros H. repeat (case_match; simplify_eq; try done).
    revert H4. unfold from_utf8. by destruct (utf8_valid l) eqn:E; intros [= <-]. }
  destruct (resp_step dbg x buf) as [[x1 [err|r|]]|]; cbn; try done.
  - destruct r; cbn; [|done]. intros [= ->]. by eapply Hstep.
  - apply IH.
Qed.

Lemma sent_string e s b v : (mem_send e s b).2 = ROk v -> forall t, v = VString t -> valid t.
Proof.
  unfold mem_send. destruct (dispatch e s (into_request b) []) as [s' [resp|src r|]]; cbn [snd]; [|done|done].
  destruct (resp_feed (debug e) resp_ctx_new resp).2 as [[w|src|src]| | | |] eqn:E; try done.
  intros [= <-] t ->. by eapply feed_string.
Qed.

Lemma method_string e s b (f : value -> client_res value) v :
  (forall w, f w = ROk v -> w = v) -> (mem_method e s b f).2 = ROk v -> forall t, v = VString t -> valid t.
Proof.
  intros Hf. unfold mem_method. destruct b as [b|err| |]; try done.
  pose proof (sent_string e s b) as H. destruct (mem_send e s b) as [s' r]. cbn [snd] in *.
  destruct r as [w|err| |]; cbn; try done. intros E t ->. apply (H w); [done|]. by apply Hf.
Qed.

Lemma number_same w v : or_panic (a_number w) = ROk v -> w = v.
Proof. by destruct w; cbn; intros [= <-]. Qed.

(** ** Lines *)

Lemma valid_message err : valid (message err).
Proof. by destruct err. Qed.

Lemma valid_inner e s req out : (process_inner e rust_text s req).2 = IOk out -> valid out.
Proof.
  assert (Hval : forall (r : store * client_res value) out,
    (forall v, r.2 = ROk v -> forall t, v = VString t -> valid t) ->
    (awaiting r (fun v => printed (print_value e rust_text v))).2 = IOk out -> valid out).
  { intros r o Hr. unfold awaiting. cbn [snd]. destruct r.2 as [v|err| |]; try done. unfold printed.
    destruct (print_value e rust_text v) as [p|] eqn:Ep; [|done]. intros [= <-].
    eapply value_valid; [|exact Ep]. by apply Hr. }
  assert (Hany : forall {A} (r : store * client_res A) f out,
    (forall a out, f a = IOk out -> valid out) -> (awaiting r f).2 = IOk out -> valid out).
  { intros A r f o Hf. unfold awaiting. cbn [snd]. destruct r.2 as [a|err| |]; try done. apply Hf. }
  assert (Hor : forall {A} (o : option A) err f out, (forall a, (f a : store * inner_res).2 = IOk out -> valid out) ->
    (or_else s o err f).2 = IOk out -> valid out).
  { intros A o err f o' Hf. destruct o as [a|]; [apply Hf|done]. }
  assert (Hkey : forall l f out, (forall a, (f a : store * inner_res).2 = IOk out -> valid out) ->
    (keyed s l f).2 = IOk out -> valid out).
  { intros l f o Hf. unfold keyed. destruct (checked_keys l) as [[]|]; try done. apply Hf. }
  assert (Hbool : forall b out, IOk (show_bool b) = IOk out -> valid out) by (intros [] ? [= <-]; done).
  assert (Hlossy : forall bs out, IOk (lossy bs) = IOk out -> valid out) by (intros bs ? [= <-]; apply lossy_spec).
  assert (Hall : forall l, Forall (fun s => valid s) (map lossy l)).
  { intros l. apply Forall_map, Forall_forall. intros ? _. apply lossy_spec. }
  unfold process_inner. destruct (r_command req); try done.
  - apply Hor. intros k. apply Hval. intros v Hv. eapply method_string; [|exact Hv]. intros w. apply number_same.
  - apply Hor. intros k. apply Hval. intros v Hv. eapply method_string; [|exact Hv]. intros w. apply number_same.
  - apply Hor. intros k. apply Hval. intros v Hv. eapply method_string; [|exact Hv]. by intros w [= <-].
  - apply Hor. intros k. by apply Hany.
  - apply Hor. intros a. apply Hkey. intros l. by apply Hany.
  - apply Hor. intros t. apply Hor. intros a. apply Hkey. intros l. by apply Hany.
  - apply Hor. intros k. apply Hor. intros d. by apply Hany.
  - apply Hor. intros k. apply Hany. intros t o [= <-]. by destruct t.
  - apply Hor. intros k. apply Hany. intros l o [= <-]. by apply valid_join.
  - destruct (args_all req) as [a|]; [|by intros [= <-]]. apply Hany. intros l o [= <-]. by apply valid_join.
  - apply Hany. intros d o [= <-].
    repeat (apply valid_app; [first [apply valid_i64|reflexivity]|]). apply valid_i64.
Qed.

Lemma line_valid e s line s' out : process e rust_text s line = (s', LOk out) -> valid out.
Proof.
  unfold process. destruct (parse_line e rust_text line) as [req|err|]; try done.
  pose proof (valid_inner e s req) as H. destruct (process_inner e rust_text s req) as [s1 [o|err|]]; cbn [snd] in H; try done.
  - intros [= <- <-]. by apply H.
  - intros [= <- <-]. apply valid_message.
Qed.

Lemma session_valid e s lines : valid (session e rust_text s lines).1.
Proof.
  assert (Htake : forall line (k : store -> bytes * ending) s, (forall s, valid (k s).1) ->
    valid ((if utf8_valid line then
      match process e rust_text s (trim_end line) with
      | (s, LOk output) => let '(w, end_) := k s in (lit "> "%string ++ output ++ [x0a] ++ w, end_)
      | (_, LErr err) => (lit "> "%string, EndError err)
      | (_, LPanic) => (lit "> "%string, EndPanic)
      end
    else (lit "> "%string, EndInvalidUtf8)) : bytes * ending).1).
  { intros line k s0 Hk. destruct (utf8_valid line); [|done].
    destruct (process e rust_text s0 (trim_end line)) as [s1 [out|err|]] eqn:E; try done.
    specialize (Hk s1). destruct (k s1) as [w en]. cbn [fst] in *. apply line_valid in E.
    apply valid_app; [done|]. apply valid_app; [done|]. by apply valid_app. }
  revert s. induction lines as [|line lines IH]; intros s; cbn [session].
  - by apply (Htake [] (fun _ => ([], EndPanic))).
  - by apply (Htake line (fun s => session e rust_text s lines)).
Qed.

(** ** In terms of characters *)

Lemma c126_value e v out : (forall s, v = VString s -> exists cs, spells_chars cs s) ->
  print_value e rust_text v = Ok out -> exists cs, spells_chars cs out.
Proof.
  intros Hv H. apply valid_chars. eapply value_valid; [|exact H]. intros s E. destruct (Hv s E) as [cs Hcs]. by eapply chars_valid.
Qed.

Lemma c126_line e s line s' out : process e rust_text s line = (s', LOk out) -> exists cs, spells_chars cs out.
Proof. intros H. by eapply valid_chars, line_valid. Qed.

Lemma c126_run e input : exists cs, spells_chars cs (run_cli e rust_text input).1.
Proof. apply valid_chars, session_valid. Qed.

Lemma c126_same e b : print_value e rust_text (VBytes b) = Ok b <-> exists cs, spells_chars cs b.
Proof.
  cbn. split.
  - intros [= E]. apply valid_chars. rewrite <-E. apply lossy_spec.
  - intros [cs Hcs]. f_equal. apply lossy_spec. by eapply chars_valid.
Qed.
