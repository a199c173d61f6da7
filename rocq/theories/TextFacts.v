(** The texts of the errors: the proof of C101. *)
From Coq Require Import String.
From Verif Require Import Bytes Utf8 Value CommandId Request Metrics Prog Commands Client ClientSpec ClientProps
  RespContext MemTasks Cli CliSpec CliFacts CliProps Texts TextSpec.
From stdpp Require Import list.
From Coq Require Import NArith ZArith Lia ZifyBool ZifyNat ZifyN.
From Coq.Init Require Import Byte.

Lemma show_u8_inj a b : (a < 256)%N -> (b < 256)%N -> show_u8 a = show_u8 b -> a = b.
Proof.
  intros Ha Hb H. unfold show_u8 in H.
  assert (E : parse_i64 (show_i64 (Z.of_N a)) = parse_i64 (show_i64 (Z.of_N b))) by by rewrite H.
  rewrite !parse_show in E by (unfold i64_range, i64_half; lia). injection E. lia.
Qed.

Lemma suffix_inj (p q x y : bytes) : p ++ x = q ++ y -> length x = length y -> p = q /\ x = y.
Proof. intros H Hl. by apply app_inj_2 in H. Qed.

Lemma type_end a b t u :
  a ++ lit "' is not a " ++ type_text t = b ++ lit "' is not a " ++ type_text u -> a = b /\ t = u.
Proof.
  intros H. assert (E : t = u).
  { apply (f_equal (@rev _)) in H. rewrite !rev_app_distr in H. revert H.
    by destruct t, u; cbn; intros H; try done; simplify_eq. }
  subst u. split; [|done]. by apply app_inv_tail in H.
Qed.

Lemma builder_text_inj a b : builder_text a = builder_text b -> a = b.
Proof. by destruct a, b. Qed.

Lemma c101_line a b : line_text a = line_text b -> a = b.
Proof.
  destruct a, b; cbn [line_text]; intros H; try done.
  - apply app_inv_head, type_end in H as [-> ->]. done.
  - apply app_inv_head in H. by rewrite (builder_text_inj _ _ H).
  - apply app_inv_head, app_inv_tail in H as ->. done.
  - apply app_inv_head in H as ->. done.
Qed.

(** ** What is blamed *)

Lemma split_on_occurs c s w : w ∈ split_on c s -> occurs w s.
Proof.
  revert w. assert (H : forall w ws, split_on c s = w :: ws ->
    (exists q, s = w ++ q) /\ forall v, v ∈ ws -> occurs v s).
  { induction s as [|b s IH]; intros w ws; cbn.
    - intros [= <- <-]. split; [by exists []|]. by intros v ?%elem_of_nil.
    - destruct (decide (b = c)).
      + intros [= <- <-]. split; [by exists (b :: s)|]. intros v Hv.
        destruct (split_on c s) as [|w' ws']; [by apply elem_of_nil in Hv|].
        destruct (IH w' ws' eq_refl) as [[q ->] Hws].
        apply elem_of_cons in Hv as [->|Hv]; [by exists [b], q|].
        destruct (Hws v Hv) as (p & q' & ->). by exists (b :: p), q'.
      + destruct (split_on c s) as [|w' ws'].
        * intros [= <- <-]. split; [by exists s|]. by intros v ?%elem_of_nil.
        * intros [= <- <-]. destruct (IH w' ws' eq_refl) as [[q ->] Hws]. split; [by exists q|].
          intros v Hv. destruct (Hws v Hv) as (p & q' & ->). by exists (b :: p), q'. }
  intros w Hw. destruct (split_on c s) as [|w' ws]; [by apply elem_of_nil in Hw|].
  destruct (H w' ws eq_refl) as [[q Hq] Hws]. apply elem_of_cons in Hw as [->|Hw]; [|by apply Hws].
  by exists [], q.
Qed.

Lemma typed_words_blames x t words acc err w :
  typed_words x t words acc = LErr err -> blamed err = Some w -> w ∈ words.
Proof.
  destruct (decide (t = KTMap)) as [->|Ht].
  - revert acc. induction words as [|k|k v words IH] using pairs_ind; intros acc; cbn; [done..|].
    intros H1 H2. do 2 right. by eapply IH.
  - revert acc. induction words as [|v words IH]; intros acc; [done|].
    destruct t; cbn; try done; try (intros H1 H2; right; by eapply IH).
    + destruct (parse_bool v); [intros H1 H2; right; by eapply IH|]. intros [= <-] [= <-]. left.
    + destruct (parse_f64 x v); [intros H1 H2; right; by eapply IH|]. intros [= <-] [= <-]. left.
    + destruct (parse_i64 v); [intros H1 H2; right; by eapply IH|]. intros [= <-] [= <-]. left.
Qed.

Lemma input_args_blames x c t words err w :
  input_args x c t words = LErr err -> blamed err = Some w -> w ∈ words.
Proof.
  unfold input_args. destruct (key_notation_of c); [done| | |].
  - apply typed_words_blames.
  - destruct words; [by intros [= <-]|]. intros H1 H2. right. by eapply typed_words_blames.
  - destruct words as [|? [|? ?]]; try (by intros [= <-]). intros H1 H2. do 2 right.
    by eapply typed_words_blames.
Qed.

Lemma line_build_blames e b args err : line_build e b args = LErr err -> blamed err = None.
Proof.
  revert b. induction args as [|a args IH]; intros b; cbn; [done|].
  destruct (builder_bytes e b a) as [[b' [er|]]|]; [by intros [= <-]|apply IH|done].
Qed.

Lemma c101_blames e x line err w :
  parse_line e x line = LErr err -> blamed err = Some w ->
  occurs w line /\ occurs w (process_text err).
Proof.
  intros H Hb. split.
  - unfold parse_line in H. apply (split_on_occurs x20).
    destruct (split_on x20 line) as [|[|n0 name] words]; [by injection H as <-..|].
    destruct (line_command _) as [[c ot]|].
    2: { injection H as <-. injection Hb as <-. left. }
    destruct words as [|v words]; [done|].
    destruct (input_args x c (default KTBytes ot) (v :: words)) as [args|err'|] eqn:Ha; [| |done].
    + destruct (line_build _ _ _) eqn:Hl; [done| |done]. injection H as ->.
      apply line_build_blames in Hl. congruence.
    + injection H as ->. right. by eapply input_args_blames.
  - unfold process_text, occurs. destruct err; try done; injection Hb as ->; cbn [line_text].
    + exists (lit "failed to parse input: " ++ lit "the argument '"),
        (lit "' is not a " ++ type_text key_type). by rewrite <-app_assoc.
    + exists (lit "failed to parse input: " ++ lit "the command '"), (lit "' is invalid").
      by rewrite <-app_assoc.
    + exists (lit "failed to parse input: " ++
        lit "the map has an incomplete key-value; the last key was "), []. by rewrite app_nil_r, <-app_assoc.
Qed.

Lemma c101_process a b : process_text a = process_text b -> a = b.
Proof. intros H%app_inv_head. by apply c101_line. Qed.

(** ** The errors of clients *)

Lemma unsupported_text t u p q :
  lit "key type " ++ show_u8 (key_type_to_u8 t) ++ lit " is not supported by this command" ++ p =
  lit "key type " ++ show_u8 (key_type_to_u8 u) ++ lit " is not supported by this command" ++ q ->
  t = u.
Proof.
  intros H%app_inv_head.
  assert (E : forall t, exists c, show_u8 (key_type_to_u8 t) = [c] /\ b2n c = (48 + key_type_to_u8 t)%N).
  { intros []; eexists; split; vm_compute; reflexivity. }
  destruct (E t) as (c & E1 & E2), (E u) as (d & F1 & F2). rewrite E1, F1 in H. cbn [app] in H.
  injection H as -> _. rewrite E2 in F2. by destruct t, u.
Qed.

Lemma names_inj :
  (forall a b, dispatch_name a = dispatch_name b -> a = b) /\
  (forall a b, dispatch_text a = dispatch_text b -> a = b) /\
  (forall a b, builder_name a = builder_name b -> a = b) /\
  (forall a b, parse_error_name a = parse_error_name b -> a = b) /\
  (forall a b, config_text a = config_text b -> a = b).
Proof. by split_and!; intros [] []. Qed.

Ltac same_text H := apply (inj Some) in H; cbn [alike];
  first [done
        |exfalso; revert H; clear; repeat match goal with x : dispatch_error |- _ => destruct x
           | x : builder_error |- _ => destruct x | x : parse_error |- _ => destruct x end; done
        |apply app_inv_head in H].

Lemma c101_memory show a b t : number_fits a -> number_fits b ->
  memory_text show a = Some t -> memory_text show b = Some t -> alike a b.
Proof.
  destruct names_inj as (N1 & N2 & N3 & N4 & _). intros Ha Hb H1 H2.
  assert (H : memory_text show a = memory_text show b) by congruence.
  assert (Hs : memory_text show a <> None) by congruence. clear H1 H2 t.
  destruct a as [p| |p| | |p|n|k [v|]| | |p]; try done;
  destruct b as [q| |q| | |q|m|k' [v'|]| | |q]; try done; cbn [memory_text] in H.
  all: try (by apply (inj Some), N2 in H as ->).
  all: try (apply (inj Some) in H; by apply (unsupported_text k k') in H).
  all: same_text H.
  - apply N4 in H as ->. done.
  - apply N3 in H as ->. done.
  - apply N1 in H as ->. done.
  - apply app_inv_tail in H. apply show_u8_inj in H as ->; done.
Qed.

Lemma c101_server a b t : number_fits a -> number_fits b ->
  server_text a = Some t -> server_text b = Some t -> a = b.
Proof.
  destruct names_inj as (N1 & N2 & N3 & N4 & _). intros Ha Hb H1 H2.
  assert (H : server_text a = server_text b) by congruence.
  assert (Hs : server_text a <> None) by congruence. clear H1 H2 t.
  destruct a as [p| |p| | |p|n|k [v|]| | |p]; try done;
  destruct b as [q| |q| | |q|m|k' [v'|]| | |q]; try done; cbn [server_text] in H.
  all: try (apply (inj Some) in H; rewrite <-(app_nil_r (lit " is not supported by this command")) in H;
    by apply (unsupported_text k k') in H as ->).
  all: same_text H.
  - apply N4 in H as ->. done.
  - apply N3 in H as ->. done.
  - apply N1 in H as ->. done.
  - apply app_inv_tail in H. apply show_u8_inj in H as ->; done.
Qed.

(** ** Every error of a client has a text *)

Definition errs {A} (P : client_error -> Prop) (r : client_res A) : Prop :=
  match r with RErr err => P err | _ => True end.

Lemma errs_bind {A B} P (r : client_res A) (f : A -> client_res B) :
  errs P r -> (forall a, errs P (f a)) -> errs P (rbind r f).
Proof. by destruct r; cbn. Qed.

Lemma errs_built (P : client_error -> Prop) (r : outcome (builder * option builder_error)) :
  (forall err, P (CEBuildingRequest err)) -> errs P (built_or r).
Proof. intros H. by destruct r as [[b [err|]]|]; cbn. Qed.

Lemma errs_put_all (P : client_error -> Prop) e b l : (forall err, P (CEBuildingRequest err)) -> errs P (put_all e b l).
Proof.
  intros H. revert b. induction l as [|x l IH]; intros b; [done|]. apply errs_bind; [|done].
  by apply errs_built.
Qed.

Lemma errs_build (P : client_error -> Prop) e c : (forall err, P (CEBuildingRequest err)) ->
  (forall v, P (CEKeyTypeUnsupported (kind v) (Some v))) -> errs P (build e c).
Proof.
  intros H1 H2. destruct c; cbn [build]; try done;
    repeat first [apply errs_bind; [|intros ?] | by apply errs_built | by apply errs_put_all].
  all: try (destruct v; try (by apply errs_built); try (by apply errs_put_all); apply H2).
  all: try (destruct (not_number v); [apply H2|by apply errs_built]).
Qed.

Lemma errs_kind P t v : errs P (of_kind t v).
Proof. unfold of_kind. by destruct (decide _). Qed.

Lemma errs_type (P : client_error -> Prop) z : (forall n, (n < 256)%N -> P (CEKeyTypeInvalid n)) -> errs P (a_key_type z).
Proof.
  intros H. unfold a_key_type. destruct (key_type_of_u8 _); [done|]. apply H.
  unfold as_u8. by apply N.mod_lt.
Qed.

Lemma errs_opened (P : client_error -> Prop) (or_ : forall A, option A -> client_res A) c v :
  (forall A (x : option A), errs P (or_ A x)) ->
  (forall n, (n < 256)%N -> P (CEKeyTypeInvalid n)) -> errs P (opened or_ c v).
Proof.
  intros H1 H2. destruct c; cbn [opened]; try done;
    repeat first [apply errs_bind; [|intros ?] | apply errs_kind | apply H1 | by apply errs_type | done].
Qed.

Lemma c101_memory_all show e s c err : (mem_call e s c).2 = RErr err ->
  is_Some (memory_text show err) /\ number_fits err.
Proof.
  set (P := fun err => is_Some (memory_text show err) /\ number_fits err).
  assert (H : errs P (mem_call e s c).2); [|intros E; by rewrite E in H].
  rewrite mem_call_method. unfold mem_method.
  pose proof (errs_build P e c) as Hb. destruct (build e c) as [b|er| |]; try done.
  - unfold mem_send. destruct (dispatch _ _ _ _) as [s' r]. cbn [snd].
    apply errs_bind.
    + destruct r as [resp|er res|]; [|by split; [eexists|]|done].
      destruct (resp_feed _ _ _).2 as [[]| | | |]; try done; by split; [eexists|].
    + intros v. apply errs_opened.
      * by intros A [].
      * intros n Hn. by split; [eexists|].
  - apply Hb; intros; (split; [by eexists|done]).
Qed.

Lemma errs_srv_method {A} (P : client_error -> Prop) e n b (f : value -> client_res A) :
  errs P b -> P CEConnectionClosed -> P CEWritingMessage -> errs P (srv_method e n b f).2.
Proof.
  intros Hb H1 H2. unfold srv_method. destruct b as [b|err| |]; try done. rewrite closed_at_once.
  by destruct (n_write_ok n).
Qed.

Lemma c101_server_all e n c err : (srv_call e n c).2 = RErr err ->
  is_Some (server_text err) /\ number_fits err.
Proof.
  set (P := fun err => is_Some (server_text err) /\ number_fits err).
  assert (H : errs P (srv_call e n c).2); [|intros E; by rewrite E in H].
  assert (P1 : P CEConnectionClosed) by by split; [eexists|].
  assert (P2 : P CEWritingMessage) by by split; [eexists|].
  assert (P3 : forall er, P (CEBuildingRequest er)) by (intros; by split; [eexists|]).
  assert (P4 : forall t, P (CEKeyTypeUnsupported t None)) by (intros; by split; [eexists|]).
  destruct c; cbn [srv_call];
    unfold srv_append, srv_decrement, srv_decrement_by, srv_delete, srv_echo,
      srv_exists, srv_get, srv_increment, srv_increment_by, srv_is, srv_key_type, srv_keys,
      srv_length, srv_rename, srv_set, srv_stats;
    rewrite ?to_kind_method, with_reply_to_method; apply errs_srv_method; try done;
    try (match goal with |- context [if not_number ?v then _ else rbind _ _] => destruct (not_number v) end);
    try done;
    repeat first [apply errs_bind; [|intros ?] | by apply errs_built | by apply errs_put_all].
  all: try (destruct v; try (by apply errs_built); try (by apply errs_put_all); apply P4).
  all: try (destruct (not_number v); [apply P4|by apply errs_built]).
Qed.

Lemma c101_short :
  (forall a b, dispatch_text a = dispatch_text b -> a = b) /\
  (forall a b, builder_text a = builder_text b -> a = b) /\
  (forall a b, config_text a = config_text b -> a = b) /\
  (forall a b, message a = message b -> a = b).
Proof. by split_and!; intros [] []. Qed.
