(** The properties of the command line. *)
From Coq Require Import String.
From Verif Require Import Bytes BytesFacts Utf8 Utf8Spec Utf8Facts Value CommandId IdsFacts Request
  RequestFacts Prog Commands EngineSpec WireSpec RequestSpec HistorySpec Client ClientSpec
  ClientFacts ClientProps Cli CliSpec CliFacts.
From stdpp Require Import gmap list.
From Coq Require Import NArith ZArith Lia ZifyBool ZifyNat ZifyN.
From Coq.Init Require Import Byte.

(** ** C58, C59: parsing *)

(** All the words of a line that are used: a map's last key without a value is not. *)
Definition unused (t : key_type) (extra : list bytes) : Prop :=
  extra = [] \/ (t = KTMap /\ exists k, extra = [k]).

Lemma pairs_ind (P : list bytes -> Prop) :
  P [] -> (forall k, P [k]) -> (forall k v l, P l -> P (k :: v :: l)) -> forall l, P l.
Proof.
  intros H0 H1 H2. assert (forall n l, length l <= n -> P l) as H.
  { induction n as [|n IH]; intros l Hl; [by destruct l; [|cbn in Hl; lia]|].
    destruct l as [|k [|v l]]; [done..|]. apply H2, IH. cbn in Hl. lia. }
  intros l. by apply (H (length l)).
Qed.

Lemma typed_words_map x words acc : Nat.even (length words) = true ->
  typed_words x KTMap words acc = LOk (acc ++ words) /\
  forall k, typed_words x KTMap (words ++ [k]) acc = LOk (acc ++ words).
Proof.
  revert acc. induction words as [|k|k v words IH] using pairs_ind; intros acc He; cbn.
  - by rewrite app_nil_r.
  - done.
  - destruct (IH (acc ++ [k; v]) He) as [-> H]. split; [by rewrite <- app_assoc|].
    intros k'. rewrite H. by rewrite <- app_assoc.
Qed.

Lemma word_same x t rest rest' : (t = KTMap \/ t = KTBytes) -> Forall2 (word_means x t) rest rest' -> rest = rest'.
Proof. intros Ht. induction 1 as [|w a rest rest' Hw _ IH]; [done|]. by destruct Ht as [-> | ->]; cbn in Hw; subst. Qed.

Lemma word_self x l : Forall2 (word_means x KTMap) l l.
Proof. induction l; by constructor. Qed.

Lemma typed_words_means x t rest rest' acc :
  Forall2 (word_means x t) rest rest' -> (t = KTMap -> Nat.even (length rest) = true) ->
  typed_words x t rest acc = LOk (acc ++ rest').
Proof.
  intros H Hm. destruct (decide (t = KTMap)) as [->|Ht].
  { rewrite <- (word_same _ _ _ _ (or_introl eq_refl) H). by apply typed_words_map, Hm. }
  clear Hm. revert acc. induction H as [|w a rest rest' Hw _ IH]; intros acc; [by rewrite app_nil_r|].
  destruct t; cbn in *; try (subst; by rewrite IH, <- app_assoc); try done.
  - destruct Hw as [[-> ->]|[-> ->]].
    + change (parse_bool _) with (Some true). cbn. by rewrite IH, <- app_assoc.
    + change (parse_bool _) with (Some false). cbn. by rewrite IH, <- app_assoc.
  - destruct Hw as (f & -> & ->). by rewrite IH, <- app_assoc.
  - destruct Hw as (z & Hd & Hz & ->). rewrite (proj2 (parse_i64_spec _ _) (conj Hd Hz)).
    by rewrite IH, <- app_assoc.
Qed.

Lemma parse_bool_spec w b : parse_bool w = Some b -> w = lit (if b then "true" else "false")%string.
Proof.
  unfold parse_bool, bytes_eqb. destruct (bool_decide_reflect (w = lit "true"%string)); [by intros [= <-]|].
  destruct (bool_decide_reflect (w = lit "false"%string)); [by intros [= <-]|done].
Qed.

Lemma typed_words_inv x t words acc args : typed_words x t words acc = LOk args ->
  exists rest extra rest', words = rest ++ extra /\ unused t extra /\ args = acc ++ rest' /\
    Forall2 (word_means x t) rest rest' /\ (t = KTMap -> Nat.even (length rest) = true).
Proof.
  destruct (decide (t = KTMap)) as [->|Ht].
  - revert acc. induction words as [|k|k v words IH] using pairs_ind; intros acc; cbn.
    + intros [= <-]. exists [], [], []. split_and!; [done|by left|by rewrite app_nil_r|constructor|done].
    + intros [= <-]. exists [], [k], [].
      split_and!; [done|right; split; [done|by eexists]|by rewrite app_nil_r|constructor|done].
    + intros H. apply IH in H as (rest & extra & rest' & -> & Hu & -> & Hr & He).
      exists (k :: v :: rest), extra, (k :: v :: rest'). rewrite <- app_assoc.
      split_and!; [done..|by repeat constructor|]. intros _. by apply He.
  - revert acc. induction words as [|w words IH]; intros acc H.
    { injection H as <-. exists [], [], []. split_and!; [done|by left|by rewrite app_nil_r|constructor|done]. }
    assert (exists a, word_means x t w a /\ typed_words x t words (acc ++ [a]) = LOk args) as (a & Ha & H').
    { destruct t; cbn in *; try (by exists w); try done.
      - destruct (parse_bool w) as [b|] eqn:Hb; [|done]. apply parse_bool_spec in Hb as ->.
        eexists. split; [|exact H]. destruct b; [by left|by right].
      - destruct (parse_f64 x w) as [f|] eqn:Hf; [|done]. eexists. split; [|exact H]. by exists f.
      - destruct (parse_i64 w) as [z|] eqn:Hz; [|done]. apply parse_i64_spec in Hz as [Hd Hz].
        eexists. split; [|exact H]. by exists z. }
    apply IH in H' as (rest & extra & rest' & -> & Hu & -> & Hr & _).
    exists (w :: rest), extra, (a :: rest'). rewrite <- app_assoc. by split_and!; [| | |constructor|].
Qed.

Lemma typed_words_fails x t words acc : typed_words x t words acc <> LPanic /\
  forall k, typed_words x t words acc <> LErr (LEMapIncomplete k).
Proof.
  destruct (decide (t = KTMap)) as [->|Ht].
  - revert acc. induction words as [|k|k v words IH] using pairs_ind; intros acc; cbn; [done..|apply IH].
  - revert acc. induction words as [|w words IH]; intros acc; [done|].
    destruct t; cbn; try apply IH; try done.
    + destruct (parse_bool w); [apply IH|done].
    + destruct (parse_f64 x w); [apply IH|done].
    + destruct (parse_i64 w); [apply IH|done].
Qed.

Lemma input_args_means x c t words args : words <> [] -> words_mean x c t words args ->
  input_args x c t words = LOk args.
Proof.
  intros Hne H. unfold input_args.
  assert (Hk : forall keys rest rest', words = keys ++ rest -> args = keys ++ rest' ->
    length keys = key_words c -> Forall2 (word_means x t) rest rest' ->
    (t = KTMap -> Nat.even (length rest) = true) -> key_notation_of c <> KNMultiple ->
    input_args x c t words = LOk args).
  { intros keys rest rest' -> -> Hlen Hr He Hc. unfold input_args.
    destruct c; cbn in Hlen; cbn [key_notation_of]; try done;
      destruct keys as [|k1 [|k2 [|k3 keys]]]; try done; by apply typed_words_means. }
  unfold words_mean in H. destruct c; try (by subst);
    (destruct H as [[-> _]|(keys & rest & rest' & Hw & Ha & Hlen & Hr & He)]; [done|]);
    by apply (Hk keys rest rest').
Qed.

Lemma input_args_inv x c t words args : input_args x c t words = LOk args ->
  exists used extra, words = used ++ extra /\ unused t extra /\ words_mean x c t used args.
Proof.
  unfold input_args, words_mean. intros H.
  assert (Hk : forall keys rest, words = keys ++ rest -> length keys = key_words c ->
    typed_words x t rest keys = LOk args ->
    exists used extra, words = used ++ extra /\ unused t extra /\
      exists keys rest rest', used = keys ++ rest /\ args = keys ++ rest' /\
      length keys = key_words c /\ Forall2 (word_means x t) rest rest' /\
      (t = KTMap -> Nat.even (length rest) = true)).
  { intros keys rest -> Hlen Ht. apply typed_words_inv in Ht as (r & extra & r' & -> & Hu & -> & Hr & He).
    exists (keys ++ r), extra. rewrite <- app_assoc. split_and!; [done..|]. by exists keys, r, r'. }
  destruct c; cbn [key_notation_of] in H;
    try (injection H as <-; exists words, []; rewrite app_nil_r; split_and!; [done|by left|done]);
    destruct words as [|k1 words]; try done;
    try (destruct words as [|k2 words]; [done|]).
  all: try (destruct (Hk [k1] words eq_refl eq_refl H) as (u & ex & ? & ? & ?); exists u, ex;
            split_and!; [done..|by right]).
  all: try (destruct (Hk [k1; k2] words eq_refl eq_refl H) as (u & ex & ? & ? & ?); exists u, ex;
            split_and!; [done..|by right]).
  all: try (destruct (Hk [] (k1 :: words) eq_refl eq_refl H) as (u & ex & ? & ? & ?); exists u, ex;
            split_and!; [done..|by right]).
  all: try (destruct (Hk [] [] eq_refl eq_refl H) as (u & ex & ? & ? & ?); exists u, ex;
            split_and!; [done..|by right]).
Qed.

Lemma input_args_fails x c t words : input_args x c t words <> LPanic /\
  forall k, input_args x c t words <> LErr (LEMapIncomplete k).
Proof.
  unfold input_args. destruct (key_notation_of c); [done| | |].
  - apply typed_words_fails.
  - destruct words; [done|]. apply typed_words_fails.
  - destruct words as [|? [|? ?]]; [done..|]. apply typed_words_fails.
Qed.

Lemma line_build_ok e c kt l args :
  Forall (fun a => a <> []) args -> (lenN l + lenN args <= 255)%N ->
  line_build e (built c kt l) args = LOk (built c kt (l ++ args)).
Proof.
  intros H. revert l. induction H as [|a args Ha _ IH]; intros l Hl; cbn.
  - by rewrite app_nil_r.
  - rewrite lenN_cons in Hl. rewrite builder_bytes_built by (done || lia).
    rewrite IH by (rewrite lenN_app, lenN_one; lia). by rewrite <- app_assoc.
Qed.

Lemma builder_bytes_cons e b a : a <> [] -> builder_bytes e b a = outmap (fun b' => (b', None)) (push_argument e b a).
Proof. by destruct a. Qed.

Lemma line_build_inv e c kt l args b :
  line_build e (built c kt l) args = LOk b -> (lenN l <= 256)%N ->
  b = built c kt (l ++ args) /\ Forall (fun a => a <> []) args /\ (lenN l + lenN args <= 256)%N.
Proof.
  revert l. induction args as [|a args IH]; intros l H Hl; cbn in H.
  - injection H as <-. rewrite app_nil_r. split_and!; [done|constructor|rewrite lenN_nil; lia].
  - destruct (decide (a = [])) as [->|Ha]; [done|]. rewrite builder_bytes_cons in H by done.
    destruct (push_argument e (built c kt l) a) as [b'|] eqn:Hp; [|done]. cbn in H.
    assert (b' = built c kt (l ++ [a]) /\ (lenN l < 256)%N) as [-> Hl'].
    { destruct (decide (lenN l < 255)%N) as [H1|H1].
      - rewrite push_built in Hp by done. injection Hp as <-. split; [done|lia].
      - destruct (decide (lenN l = 255)%N) as [H2|H2].
        + rewrite push_built_255 in Hp by done. destruct (debug e); [done|]. injection Hp as <-.
          split; [done|lia].
        + rewrite push_built_full in Hp by lia. done. }
    apply IH in H as (-> & Hne & Hlen); [|rewrite lenN_app, lenN_one; lia].
    rewrite <- app_assoc. rewrite lenN_app, lenN_one in Hlen. rewrite lenN_cons.
    split_and!; [done|by constructor|lia].
Qed.

Lemma line_build_too_many e c kt l args :
  Forall (fun a => a <> []) args -> (256 < lenN l + lenN args)%N -> (lenN l <= 256)%N ->
  line_build e (built c kt l) args = LPanic.
Proof.
  intros H. revert l. induction H as [|a args Ha _ IH]; intros l Hlen Hl; cbn.
  { rewrite lenN_nil in Hlen. lia. }
  rewrite lenN_cons in Hlen. rewrite builder_bytes_cons by done.
  destruct (decide (lenN l < 255)%N) as [H1|H1].
  { rewrite push_built by done. cbn. apply IH; rewrite lenN_app, lenN_one; lia. }
  destruct (decide (lenN l = 255)%N) as [H2|H2].
  - rewrite push_built_255 by done. destruct (debug e); [done|]. cbn.
    apply IH; rewrite lenN_app, lenN_one; lia.
  - by rewrite push_built_full by lia.
Qed.

Lemma line_build_no_panic e b args :
  lenN (b_positions b) = b_count b -> (kt_base (b_key_type b) <= lenN (b_buf b))%N ->
  (b_count b + lenN args <= 255)%N -> line_build e b args <> LPanic.
Proof.
  revert b. induction args as [|a args IH]; intros b Hp Hb Hlen; cbn; [done|].
  rewrite lenN_cons in Hlen.
  destruct (decide (a = [])) as [->|Ha]; [done|]. rewrite builder_bytes_cons by done.
  unfold push_argument. rewrite uadd_ok by (unfold u8_mod; lia). cbn [obind].
  unfold set_at. rewrite !lenN_app, be_enc_lenN.
  replace (1 + kt_base (b_key_type b) <? _)%N with true by lia.
  replace (lenN (b_positions b) <? positions_cap)%N with true by (unfold positions_cap; lia).
  cbn. apply IH; cbn.
  - rewrite lenN_app, lenN_one. lia.
  - rewrite lenN_insert, !lenN_app, be_enc_lenN. lia.
  - lia.
Qed.

Lemma parse_line_words e x name words c t : spelled name c t -> Forall word words ->
  parse_line e x (line_of name words) =
  match words with
  | [] => LOk (into_request (builder_new_kt c (Some t)))
  | _ =>
    match input_args x c t words with
    | LOk args =>
      match line_build e (builder_new_kt c (Some t)) args with
      | LOk b => LOk (into_request b) | LErr err => LErr err | LPanic => LPanic
      end
    | LErr err => LErr err
    | LPanic => LPanic
    end
  end.
Proof.
  intros Hs Hw. destruct (spelled_word _ _ _ Hs) as [Hn Hne]. unfold parse_line.
  rewrite split_line by done. apply line_command_spec in Hs as (ot & -> & Hot).
  rewrite Hot. by destruct name.
Qed.

Lemma not_simple c : c <> CStats -> is_simple c = false.
Proof. by destruct c. Qed.

Lemma words_mean_nil x c t args : words_mean x c t [] args -> args = [].
Proof.
  unfold words_mean. destruct c; try done; intros [[_ ?]|(keys & rest & rest' & Hw & -> & Hl & Hr & _)]; try done;
    symmetry in Hw; apply app_eq_nil in Hw as [-> ->]; by inversion Hr.
Qed.

Lemma c58_reads e x name c t words args :
  spelled name c t -> Forall word words -> words_mean x c t words args ->
  Forall (fun a => a <> []) args -> (lenN args <= 255)%N -> (c = CStats -> words = []) ->
  exists req, parse_line e x (line_of name words) = LOk req /\ asks req c (Some t) args.
Proof.
  intros Hs Hw Hm Hne Hlen Hst. rewrite (parse_line_words _ _ _ _ c t) by done.
  destruct words as [|w words].
  { apply words_mean_nil in Hm as ->. eexists. split; [done|]. split; [done|]. split; [done|].
    by apply req_args_nil. }
  rewrite (input_args_means x c t (w :: words) args ltac:(done) Hm).
  rewrite builder_new_kt_built by (apply not_simple; intros ->; by specialize (Hst eq_refl)).
  rewrite line_build_ok by (done || rewrite lenN_nil; lia).
  eexists. split; [done|]. apply built_asks.
Qed.

Lemma c58_reads_inv e x line req :
  parse_line e x line = LOk req ->
  exists name c t used extra args,
    line = line_of name (used ++ extra) /\ spelled name c t /\ Forall word (used ++ extra) /\
    unused t extra /\ words_mean x c t used args /\
    (c <> CStats -> asks req c (Some t) args /\ Forall (fun a => a <> []) args /\ (lenN args <= 256)%N).
Proof.
  destruct (split_line_inv line) as (name & words & Hsplit & Hline & Hn & Hw).
  intros H. pose proof H as H0. unfold parse_line in H0. rewrite Hsplit in H0.
  destruct name as [|n0 name]; [done|].
  destruct (line_command (n0 :: name)) as [[c ot]|] eqn:Hc; [|done]. clear H0 Hsplit.
  assert (Hs : spelled (n0 :: name) c (default KTBytes ot))
    by (apply line_command_spec; by exists ot).
  set (t := default KTBytes ot) in *. rewrite Hline in H.
  rewrite (parse_line_words _ _ _ _ c t) in H by done.
  destruct words as [|w words].
  { injection H as <-. exists (n0 :: name), c, t, [], [], [].
    split_and!; [done..|by left| |].
    - destruct c; cbn; auto.
    - intros _. split_and!; [split; [done|]; split; [done|]; by apply req_args_nil|constructor|].
      rewrite lenN_nil. lia. }
  destruct (input_args x c t (w :: words)) as [args| |] eqn:Ha; [|done..].
  apply input_args_inv in Ha as (used & extra & Hwords & Hu & Hm).
  destruct (line_build e (builder_new_kt c (Some t)) args) as [b| |] eqn:Hb; [|done..].
  injection H as <-. rewrite Hwords in *.
  exists (n0 :: name), c, t, used, extra, args. split_and!; [done..|].
  intros Hst. rewrite builder_new_kt_built in Hb by by apply not_simple.
  apply line_build_inv in Hb as (-> & Hne & Hlen); [|rewrite lenN_nil; lia]. rewrite lenN_nil in Hlen.
  split_and!; [apply built_asks|done|lia].
Qed.

Lemma c58_rejects_name e x first words :
  word first -> Forall word words -> first <> [] -> (forall c t, ~ spelled first c t) ->
  parse_line e x (line_of first words) = LErr (LEInvalidCommandType first).
Proof.
  intros Hf Hw Hne Hs. unfold parse_line. rewrite split_line by done.
  destruct first as [|b first]; [done|].
  destruct (line_command (b :: first)) as [[c ot]|] eqn:Hc; [|done].
  exfalso. apply (Hs c (default KTBytes ot)). apply line_command_spec. by exists ot.
Qed.

Lemma c58_no_name e x words : Forall word words ->
  parse_line e x (line_of [] words) = LErr LENoCommandProvided.
Proof. intros Hw. unfold parse_line. rewrite split_line; [done| |done]. unfold word. set_solver. Qed.

(** Lengths *)
Lemma words_mean_len x c t words args : words_mean x c t words args -> (lenN args <= lenN words)%N.
Proof.
  unfold words_mean. destruct c; try (intros ->; lia);
    (intros [[-> ->]|(keys & rest & rest' & -> & -> & Hl & Hr & _)]; [lia|];
     rewrite !lenN_app; unfold lenN; by rewrite (Forall2_length _ _ _ Hr)).
Qed.

Lemma c58_no_panic e x name words : word name -> Forall word words -> (lenN words <= 255)%N ->
  parse_line e x (line_of name words) <> LPanic.
Proof.
  intros Hn Hw Hlen. unfold parse_line. rewrite split_line by done.
  destruct name as [|n0 name]; [done|].
  destruct (line_command (n0 :: name)) as [[c ot]|] eqn:Hc; [|done].
  destruct words as [|w words]; [done|].
  destruct (input_args x c (default KTBytes ot) (w :: words)) as [args|err|] eqn:Ha; [|done|].
  - apply input_args_inv in Ha as (used & extra & Hwords & Hu & Hm).
    apply words_mean_len in Hm. rewrite Hwords, lenN_app in Hlen.
    pose proof (line_build_no_panic e (builder_new_kt c (Some (default KTBytes ot))) args) as Hp.
    destruct (line_build _ _ _); [done..|]. exfalso. apply Hp; [done| | |done].
    + cbn. rewrite ?lenN_cons. destruct (is_simple c); lia.
    + cbn. lia.
  - by apply input_args_fails in Ha.
Qed.

Lemma c58_too_many e x name c t words args :
  spelled name c t -> Forall word words -> words_mean x c t words args ->
  Forall (fun a => a <> []) args -> (256 < lenN args)%N -> c <> CStats ->
  parse_line e x (line_of name words) = LPanic.
Proof.
  intros Hs Hw Hm Hne Hlen Hst. rewrite (parse_line_words _ _ _ _ c t) by done.
  destruct words as [|w words].
  { apply words_mean_nil in Hm as ->. rewrite lenN_nil in Hlen. lia. }
  rewrite (input_args_means x c t (w :: words) args ltac:(done) Hm).
  rewrite builder_new_kt_built by by apply not_simple.
  by rewrite line_build_too_many by (done || rewrite lenN_nil; lia).
Qed.

Lemma c58_stats e x w : word w -> w <> [] ->
  exists req, parse_line e x (line_of (lit "stats"%string) [w]) = LOk req /\
    arg_count req = 1%N /\ arg req 0 = None.
Proof.
  intros Hw Hne. rewrite (parse_line_words _ _ _ _ CStats KTBytes); [|exact (spelled_plain CStats)|by constructor].
  change (input_args x CStats KTBytes [w]) with (@LOk (list bytes) [w]). cbn [line_build].
  rewrite builder_bytes_cons by done.
  unfold push_argument. rewrite uadd_ok by (cbn; unfold u8_mod; lia).
  cbn [obind]. unfold set_at. cbn [b_buf builder_new_kt is_simple argument_notation_of key_notation_of b_key_type].
  rewrite lenN_app, lenN_app, be_enc_lenN.
  replace (1 + kt_base (Some KTBytes) <? _)%N with true by (rewrite ?lenN_cons; cbn; lia).
  cbn. eexists. split; [done|]. split; [done|].
  unfold arg. cbn. unfold get_range_incl. apply get_range_too_far.
  rewrite lenN_insert. rewrite ?lenN_cons, ?lenN_app, be_enc_lenN, ?lenN_cons. cbn. lia.
Qed.

Lemma c59_dropped e x name c keys pairs k :
  spelled name c KTMap -> c <> CExists -> c <> CIs -> c <> CStats ->
  Forall word (keys ++ pairs ++ [k]) -> Forall (fun a => a <> []) (keys ++ pairs) ->
  length keys = key_words c -> Nat.even (length pairs) = true -> (lenN (keys ++ pairs) <= 255)%N ->
  exists req, parse_line e x (line_of name (keys ++ pairs ++ [k])) = LOk req /\
    asks req c (Some KTMap) (keys ++ pairs).
Proof.
  intros Hs H1 H2 H3 Hw Hne Hl He Hlen. rewrite (parse_line_words _ _ _ _ c KTMap) by done.
  assert (Ha : input_args x c KTMap (keys ++ pairs ++ [k]) = LOk (keys ++ pairs)).
  { pose proof (fun acc => proj2 (typed_words_map x pairs acc He) k) as Ht. unfold input_args.
    destruct c; cbn in Hl; cbn [key_notation_of]; try done;
      destruct keys as [|k1 [|k2 [|k3 keys]]]; try done; apply Ht. }
  destruct (keys ++ pairs ++ [k]) as [|w words] eqn:E.
  { by destruct keys, pairs. }
  rewrite Ha. rewrite builder_new_kt_built by by apply not_simple.
  rewrite line_build_ok by (done || rewrite lenN_nil; lia).
  eexists. split; [done|]. apply built_asks.
Qed.

Lemma c59_never e x line k : parse_line e x line <> LErr (LEMapIncomplete k).
Proof.
  unfold parse_line. destruct (split_on x20 line) as [|[|n0 name] words]; [done..|].
  destruct (line_command _) as [[c ot]|]; [|done]. destruct words as [|w words]; [done|].
  destruct (input_args x c (default KTBytes ot) (w :: words)) as [args|err|] eqn:Ha; [|by intros [= ->]; apply input_args_fails in Ha|done].
  assert (H : forall b, line_build e b args <> LErr (LEMapIncomplete k)).
  { clear Ha. induction args as [|a args IH]; intros b; cbn; [done|].
    destruct (builder_bytes e b a) as [[b' [err|]]|]; [done| |done]. apply IH. }
  specialize (H (builder_new_kt c (Some (default KTBytes ot)))).
  destruct (line_build _ _ _); [done| |done]. intros [= ->]. by apply H.
Qed.

(** ** C70: text *)

Lemma lossy_step b bs : exists p r, b :: bs = p ++ r /\ p <> [] /\
  ((lossy (b :: bs) = p ++ lossy r /\ forall q, utf8_valid (p ++ q) = utf8_valid q) \/
   (lossy (b :: bs) = replacement ++ lossy r /\ utf8_valid (b :: bs) = false)).
Proof.
  assert (Hfull : forall p r, b :: bs = p ++ r -> p <> [] ->
    lossy (b :: bs) = p ++ lossy r -> (forall q, utf8_valid (p ++ q) = utf8_valid q) ->
    exists p r, b :: bs = p ++ r /\ p <> [] /\
  ((lossy (b :: bs) = p ++ lossy r /\ forall q, utf8_valid (p ++ q) = utf8_valid q) \/
   (lossy (b :: bs) = replacement ++ lossy r /\ utf8_valid (b :: bs) = false))).
  { intros p r ? ? ? ?. exists p, r. auto. }
  assert (Hbad : forall p r, b :: bs = p ++ r -> p <> [] ->
    lossy (b :: bs) = replacement ++ lossy r -> utf8_valid (b :: bs) = false ->
    exists p r, b :: bs = p ++ r /\ p <> [] /\
  ((lossy (b :: bs) = p ++ lossy r /\ forall q, utf8_valid (p ++ q) = utf8_valid q) \/
   (lossy (b :: bs) = replacement ++ lossy r /\ utf8_valid (b :: bs) = false))).
  { intros p r ? ? ? ?. exists p, r. auto. }
  cbn [lossy utf8_valid] in Hfull, Hbad |- *.
  destruct (Utf8.in_range 0 127 b) eqn:H0.
  { apply (Hfull [b] bs); [done..|]. intros q. cbn. by rewrite H0. }
  destruct (Utf8.in_range 194 223 b) eqn:H1.
  { destruct bs as [|b1 bs]; [by apply (Hbad [b] [])|]. destruct (is_cont b1) eqn:C1.
    - apply (Hfull [b; b1] bs); [done..|]. intros q. cbn. by rewrite H0, H1, C1.
    - by apply (Hbad [b] (b1 :: bs)). }
  destruct (Utf8.in_range 224 239 b) eqn:H2.
  { destruct bs as [|b1 bs]; [by apply (Hbad [b] [])|].
    destruct (if Utf8.in_range 224 224 b then Utf8.in_range 160 191 b1
              else if Utf8.in_range 237 237 b then Utf8.in_range 128 159 b1 else is_cont b1) eqn:C1.
    - destruct bs as [|b2 bs]; [by apply (Hbad [b; b1] [])|]. destruct (is_cont b2) eqn:C2.
      + apply (Hfull [b; b1; b2] bs); [done..|]. intros q. cbn. by rewrite H0, H1, H2, C1, C2.
      + by apply (Hbad [b; b1] (b2 :: bs)).
    - apply (Hbad [b] (b1 :: bs)); [done..|]. by destruct bs. }
  destruct (Utf8.in_range 240 244 b) eqn:H3.
  { destruct bs as [|b1 bs]; [by apply (Hbad [b] [])|].
    destruct (if Utf8.in_range 240 240 b then Utf8.in_range 144 191 b1
              else if Utf8.in_range 244 244 b then Utf8.in_range 128 143 b1 else is_cont b1) eqn:C1.
    - destruct bs as [|b2 bs]; [by apply (Hbad [b; b1] [])|]. destruct (is_cont b2) eqn:C2.
      + destruct bs as [|b3 bs]; [by apply (Hbad [b; b1; b2] [])|]. destruct (is_cont b3) eqn:C3.
        * apply (Hfull [b; b1; b2; b3] bs); [done..|]. intros q. cbn. by rewrite H0, H1, H2, H3, C1, C2, C3.
        * by apply (Hbad [b; b1; b2] (b3 :: bs)).
      + apply (Hbad [b; b1] (b2 :: bs)); [done..|]. by destruct bs.
    - apply (Hbad [b] (b1 :: bs)); [done..|]. by destruct bs as [|? [|? ?]]. }
  by apply (Hbad [b] bs).
Qed.

Lemma lossy_spec bs : utf8_valid (lossy bs) = true /\ (utf8_valid bs = true -> lossy bs = bs).
Proof.
  remember (length bs) as n eqn:Hn. revert bs Hn.
  induction (lt_wf n) as [n _ IH]. intros [|b bs] ->; [done|].
  destruct (lossy_step b bs) as (p & r & E & Hp & [[-> Hv]|[-> Hv]]).
  - rewrite E. destruct (IH (length r)) with (bs := r) as [IH1 IH2]; [|done|].
    { rewrite E, app_length. destruct p; [done|cbn; lia]. }
    rewrite Hv. split; [done|]. intros Hr. rewrite Hv in Hr. by rewrite IH2.
  - rewrite Hv. split; [|done]. destruct (IH (length r)) with (bs := r) as [IH1 IH2]; [|done|done].
    rewrite E, app_length. destruct p; [done|cbn; lia].
Qed.

(** The last byte of a text is a whole character or the end of one. *)
Lemma valid_last t b : utf8_valid (t ++ [b]) = true -> is_cont b = negb (Utf8.in_range 0 127 b).
Proof.
  intros Hv. destruct (valid_chars _ Hv) as (cs & Hs & E).
  destruct cs as [|c cs _] using rev_ind; [by destruct t|].
  rewrite map_app, concat_app in E. cbn in E. rewrite app_nil_r in E.
  apply Forall_app in Hs as [_ Hs]. apply Forall_inv in Hs.
  assert (H : forall pre n, (n < 256)%N -> t ++ [b] = pre ++ [n2b n] ->
    ((n <? 128) = true \/ (128 <=? n) && (n <=? 191) = true)%N -> is_cont b = negb (Utf8.in_range 0 127 b)).
  { intros pre n Hn E' Hb. apply app_inj_2 in E' as [_ [= ->]]; [|done]. unfold is_cont.
    rewrite !in_range_n2b by done. destruct Hb; lia. }
  unfold is_scalar in Hs. unfold utf8_encode in E.
  destruct (c <? 128)%N eqn:E1; [|destruct (c <? 2048)%N eqn:E2; [|destruct (c <? 65536)%N eqn:E3]].
  - apply (H (concat (map utf8_encode cs)) c); [lia|done|by left].
  - apply (H (concat (map utf8_encode cs) ++ [n2b (192 + c / 64)]) (128 + c mod 64)%N);
      [lia|by rewrite <- app_assoc|right; lia].
  - apply (H (concat (map utf8_encode cs) ++ [n2b (224 + c / 4096); n2b (128 + c / 64 mod 64)]) (128 + c mod 64)%N);
      [lia|by rewrite <- app_assoc|right; lia].
  - apply (H (concat (map utf8_encode cs) ++ [n2b (240 + c / 262144); n2b (128 + c / 4096 mod 64); n2b (128 + c / 64 mod 64)]) (128 + c mod 64)%N);
      [lia|by rewrite <- app_assoc|right; lia].
Qed.

(** ** C69: printing collections *)

Lemma text_lines_app a b : text_lines (a ++ b) = text_lines a ++ text_lines b.
Proof. unfold text_lines. by rewrite map_app, concat_app. Qed.

Lemma drop_two_lines e lines t b :
  utf8_valid (t ++ [b]) = true ->
  drop_two e (text_lines (lines ++ [t ++ [b]])) =
  if Utf8.in_range 0 127 b then Ok (text_lines lines ++ t) else Panic.
Proof.
  intros Hv. rewrite text_lines_app. unfold text_lines at 2. cbn. rewrite app_nil_r.
  unfold drop_two. rewrite !lenN_app, !lenN_one. rewrite usub_ok by lia. cbn [obind].
  unfold truncate. rewrite !lenN_app, !lenN_one.
  set (p := text_lines lines).
  replace (lenN p + (lenN t + 1 + 1) <? lenN p + (lenN t + 1 + 1) - 2)%N with false by lia.
  replace (lenN p + (lenN t + 1 + 1) - 2)%N with (lenN (p ++ t)) by (rewrite lenN_app; lia).
  replace (p ++ (t ++ [b]) ++ [x0a]) with ((p ++ t) ++ b :: [x0a]) by by rewrite <- !app_assoc.
  rewrite get_at_lookup, lenN_nat. rewrite list_lookup_middle by done.
  rewrite (valid_last _ _ Hv). destruct (Utf8.in_range 0 127 b); cbn [negb]; [|done].
  by rewrite take_app.
Qed.

Lemma print_items_lines e l : print_items e l = drop_two e (text_lines (map lossy l)).
Proof. unfold print_items, text_lines. by rewrite map_map. Qed.

Lemma print_pairs_lines e l : print_pairs e l = drop_two e (text_lines (map pair_text l)).
Proof.
  unfold print_pairs, text_lines, pair_text. rewrite map_map. do 2 f_equal.
  apply map_ext. intros [k v]. cbn. by rewrite <- !app_assoc.
Qed.

Lemma utf8_valid_app a b : utf8_valid a = true -> utf8_valid (a ++ b) = utf8_valid b.
Proof.
  intros H. destruct (valid_chars _ H) as (cs & Hs & ->). clear H.
  induction Hs as [|c cs Hc _ IH]; [done|]. cbn [map concat].
  by rewrite <- app_assoc, utf8_encode_valid.
Qed.

Lemma pair_text_valid kv : utf8_valid (pair_text kv) = true.
Proof.
  unfold pair_text. rewrite utf8_valid_app by apply lossy_spec.
  change (lit "="%string ++ lossy kv.2) with (x3d :: lossy kv.2). cbn. apply lossy_spec.
Qed.

Lemma texts_valid e v ts : texts e v = Some ts -> Forall (fun t => utf8_valid t = true) ts.
Proof.
  destruct v; cbn; intros [= <-]; rewrite Forall_map, Forall_forall; intros ? _;
    (apply lossy_spec || apply pair_text_valid).
Qed.

Lemma print_texts e x v ts : texts e v = Some ts -> print_value e x v = drop_two e (text_lines ts).
Proof.
  destruct v; cbn; intros [= <-]; (apply print_items_lines || apply print_pairs_lines).
Qed.

(** A collection whose last part ends with an ASCII character is printed without it; if it ends
    with another character, printing panics. *)
Lemma c69_last e x v ts t b :
  texts e v = Some (ts ++ [t ++ [b]]) ->
  print_value e x v = if (b2n b <? 128)%N then Ok (text_lines ts ++ t) else Panic.
Proof.
  intros H. rewrite (print_texts _ _ _ _ H). apply texts_valid in H. apply Forall_app in H as [_ H].
  apply Forall_inv in H. rewrite (drop_two_lines e ts t b H).
  replace (Utf8.in_range 0 127 b) with (b2n b <? 128)%N by (unfold Utf8.in_range; lia). done.
Qed.

Lemma c69_last_empty e x v ts t :
  texts e v = Some (ts ++ [t; []]) -> print_value e x v = Ok (text_lines ts ++ t).
Proof.
  intros H. rewrite (print_texts _ _ _ _ H). clear H. rewrite text_lines_app.
  unfold text_lines at 2. cbn. unfold drop_two. rewrite !lenN_app, !lenN_one.
  rewrite usub_ok by lia. cbn [obind]. unfold truncate. rewrite !lenN_app, !lenN_one.
  set (p := text_lines ts).
  replace (lenN p + (lenN t + 1 + 1) <? lenN p + (lenN t + 1 + 1) - 2)%N with false by lia.
  replace (lenN p + (lenN t + 1 + 1) - 2)%N with (lenN (p ++ t)) by (rewrite lenN_app; lia).
  replace (p ++ (t ++ [x0a]) ++ [x0a]) with ((p ++ t) ++ x0a :: [x0a]) by by rewrite <- !app_assoc.
  rewrite get_at_lookup, lenN_nat. rewrite list_lookup_middle by done.
  change (is_cont x0a) with false. cbv iota. by rewrite take_app.
Qed.

Lemma c69_nothing e x v ts : texts e v = Some ts -> (ts = [] \/ ts = [[]]) ->
  print_value e x v = if debug e then Panic else Ok (text_lines ts).
Proof.
  intros H Hts. rewrite (print_texts _ _ _ _ H). unfold drop_two, usub.
  destruct Hts as [-> | ->]; cbn; by destruct (debug e).
Qed.

Lemma text_lines_join ts t : text_lines ts ++ t = join_with [x0a] (ts ++ [t]).
Proof.
  induction ts as [|u ts IH]; [done|]. unfold text_lines in *. cbn.
  rewrite <- !app_assoc. rewrite IH. by destruct ts.
Qed.

(** So no collection with a non-empty last part is printed in full. *)
Lemma c69_never e x v ts t : texts e v = Some (ts ++ [t]) -> t <> [] ->
  print_value e x v <> Ok (join_with [x0a] (ts ++ [t])).
Proof.
  destruct t as [|b t _] using rev_ind; [done|]. intros H _.
  rewrite (c69_last _ _ _ _ _ _ H). destruct (b2n b <? 128)%N; [|done].
  rewrite <- text_lines_join. intros [= E]. apply app_inv_head in E.
  apply (f_equal length) in E. rewrite app_length in E. cbn in E. lia.
Qed.

(** ** C68: what a line does *)

Lemma line_build_fine e b args : Forall (fun a => a <> []) args ->
  line_build e b args <> LPanic -> exists b', line_build e b args = LOk b'.
Proof.
  intros H. revert b. induction H as [|a args Ha _ IH]; intros b Hp; cbn in *; [by exists b|].
  rewrite builder_bytes_cons in * by done.
  destruct (push_argument e b a) as [b'|]; [|done]. cbn in *. by apply IH.
Qed.

Lemma line_build_command e b args b' : line_build e b args = LOk b' -> b_command b' = b_command b.
Proof.
  revert b. induction args as [|a args IH]; intros b H; cbn in H; [by injection H as <-|].
  destruct (decide (a = [])) as [->|Ha]; [done|]. rewrite builder_bytes_cons in H by done.
  destruct (push_argument e b a) as [b1|] eqn:Hp; [|done]. cbn in H. rewrite (IH _ H).
  clear -Hp. unfold push_argument in Hp. destruct (uadd _ _ _ _); [|done]. cbn in Hp.
  destruct (set_at _ _ _); [|done]. destruct (_ <? _)%N; [|done]. by injection Hp as <-.
Qed.

Lemma error_message err : message (backend_err err) = error_text err.
Proof. by destruct err as [| | | | | | | | | |[]]. Qed.

Definition finish (r : store * inner_res) : store * line_res bytes :=
  (r.1, match r.2 with
        | IOk output => LOk output
        | IErr err => LOk (message err)
        | IPanic => LPanic
        end).

Lemma process_parsed e x s line req : parse_line e x line = LOk req ->
  process e x s line = finish (process_inner e x s req).
Proof. intros H. unfold process. rewrite H. by destruct (process_inner e x s req). Qed.

Lemma finish_awaiting {A} e x c (g : A -> reply) (r : store * client_res A) f :
  (forall a, f a = printed (reply_text e x c (g a))) ->
  finish (awaiting r f) = ((with_reply g r).1, call_text e x c (with_reply g r).2).
Proof.
  intros H. destruct r as [s r]. unfold finish, awaiting, with_reply. cbn [fst snd].
  destruct r as [a|err| |]; cbn; [|by rewrite error_message|done..].
  rewrite H. by destruct (reply_text e x c (g a)).
Qed.

Lemma call_done e x s c t args call req :
  asks req c (Some t) args -> cli_call c t args = Some call ->
  finish (process_inner e x s req) = ((mem_call e s call).1, call_text e x c (mem_call e s call).2).
Proof.
  intros (Hc & Ht & Hargs) Hcall. unfold process_inner. rewrite Hc, Ht.
  assert (Hk : key_notation_of c <> KNNone -> Request.key req = args !! 0).
  { intros Hn. unfold Request.key. rewrite Hc. rewrite (proj2 Hargs). by destruct (key_notation_of c). }
  assert (Ha : args <> [] -> exists a, args_all req = Some a /\ arguments_collect a = args).
  { intros Hne. by apply args_all_collect. }
  destruct c; cbn in Hcall; try done.
  all: try (injection Hcall as <-; cbn [mem_call]; apply (finish_awaiting e x CStats); intros d; cbn;
            by rewrite <- ?app_assoc).
  all: try (destruct args as [|a [|a' args]]; try done; injection Hcall as <-;
    rewrite (Hk ltac:(done)); cbn [lookup list_lookup or_else mem_call];
    try (rewrite (proj2 Hargs); cbn [or_else]);
    match goal with |- finish _ = (_, call_text _ _ ?c _) =>
      apply (finish_awaiting e x c); first [done|by intros []] end).
  - destruct args as [|a args]; [done|]. destruct (lenN (a :: args) <=? 255)%N eqn:Hl; [|done].
    injection Hcall as <-. destruct (Ha ltac:(done)) as (l & -> & El). cbn [or_else]. rewrite El.
    unfold keyed, checked_keys. replace (255 <? lenN (a :: args))%N with false by (clear -Hl; lia).
    cbn [mem_call]. by apply (finish_awaiting e x CExists).
  - destruct args as [|a args]; [done|]. destruct (lenN (a :: args) <=? 255)%N eqn:Hl; [|done].
    injection Hcall as <-. destruct (Ha ltac:(done)) as (l & -> & El). cbn [or_else]. rewrite El.
    unfold keyed, checked_keys. replace (255 <? lenN (a :: args))%N with false by (clear -Hl; lia).
    cbn [mem_call]. by apply (finish_awaiting e x CIs).
  - destruct args as [|a args]; [done|]. injection Hcall as <-.
    destruct (Ha ltac:(done)) as (l & -> & El). rewrite El. cbn [mem_call].
    by apply (finish_awaiting e x CEcho).
Qed.

Lemma stats_done e x s req : r_command req = CStats ->
  finish (process_inner e x s req) = ((mem_call e s KStats).1, call_text e x CStats (mem_call e s KStats).2).
Proof.
  intros Hc. unfold process_inner. rewrite Hc. cbn [mem_call]. apply (finish_awaiting e x CStats).
  intros d. cbn. by rewrite <- ?app_assoc.
Qed.

Lemma parse_line_stats e x name t words args :
  spelled name CStats t -> Forall word words -> words_mean x CStats t words args ->
  Forall (fun a => a <> []) args -> (lenN args <= 255)%N ->
  exists req, parse_line e x (line_of name words) = LOk req /\ r_command req = CStats.
Proof.
  intros Hs Hw Hm Hne Hlen. rewrite (parse_line_words _ _ _ _ CStats t) by done.
  destruct words as [|w words]; [by eexists|].
  rewrite (input_args_means x CStats t (w :: words) args ltac:(done) Hm).
  destruct (line_build_fine e (builder_new_kt CStats (Some t)) args Hne) as [b Hb].
  { apply line_build_no_panic; cbn; [done|rewrite ?lenN_cons; lia|lia]. }
  rewrite Hb. eexists. split; [done|]. by apply line_build_command in Hb.
Qed.

Lemma c68_does e x s name c t words args call :
  spelled name c t -> Forall word words -> words_mean x c t words args ->
  Forall (fun a => a <> []) args -> (lenN args <= 255)%N -> cli_call c t args = Some call ->
  process e x s (line_of name words) = ((mem_call e s call).1, call_text e x c (mem_call e s call).2).
Proof.
  intros Hs Hw Hm Hne Hlen Hcall. destruct (decide (c = CStats)) as [->|Hc].
  - destruct (parse_line_stats e x name t words args) as (req & Hp & Hr); [done..|].
    rewrite (process_parsed _ _ _ _ _ Hp). injection Hcall as <-. by apply stats_done.
  - destruct (c58_reads e x name c t words args) as (req & Hp & Ha); [done..|].
    rewrite (process_parsed _ _ _ _ _ Hp). by apply (call_done e x s c t args).
Qed.

Lemma c68_missing e x s name c t words args msg :
  spelled name c t -> Forall word words -> words_mean x c t words args ->
  Forall (fun a => a <> []) args -> missing c args = Some msg ->
  process e x s (line_of name words) = (s, LOk msg).
Proof.
  intros Hs Hw Hm Hne Hmiss.
  assert (Hlen : (lenN args <= 255)%N).
  { destruct args as [|a [|a' args]]; [rewrite lenN_nil; lia|rewrite lenN_one; lia|by destruct c]. }
  assert (Hst : c <> CStats) by by destruct c.
  destruct (c58_reads e x name c t words args) as (req & Hp & Hc & Ht & Hargs); [done..|].
  rewrite (process_parsed _ _ _ _ _ Hp). unfold finish, process_inner. rewrite Hc, Ht.
  assert (Hk : key_notation_of c <> KNNone -> Request.key req = args !! 0).
  { intros Hn. unfold Request.key. rewrite Hc. rewrite (proj2 Hargs). by destruct (key_notation_of c). }
  assert (Ha : args = [] -> args_all req = None).
  { intros ->. by apply args_nil. }
  destruct c; try done; destruct args as [|a [|a' args]]; try done; injection Hmiss as <-;
    rewrite ?Ha, ?(Hk ltac:(done)) by done; cbn; try done.
  by rewrite (proj2 Hargs).
Qed.

(** The other five commands. *)
Lemma c68_panics e x s name c t words req :
  spelled name c t -> can_run c = false -> Forall word words ->
  parse_line e x (line_of name words) = LOk req ->
  process e x s (line_of name words) = (s, LPanic).
Proof.
  intros Hs Hc Hw Hp. rewrite (process_parsed _ _ _ _ _ Hp).
  assert (Hr : r_command req = c).
  { rewrite (parse_line_words _ _ _ _ c t) in Hp by done.
    destruct words as [|w words]; [by injection Hp as <-|].
    destruct (input_args _ _ _ _) as [args| |]; [|done..].
    destruct (line_build e (builder_new_kt c (Some t)) args) as [b| |] eqn:Hb; [|done..].
    injection Hp as <-. by apply line_build_command in Hb. }
  unfold finish, process_inner. rewrite Hr. by destruct c.
Qed.

(** The key type of a step is not used. *)
Lemma c68_step_type e x s name name' t t' k c :
  c = CIncrement \/ c = CDecrement ->
  spelled name c t -> spelled name' c t' -> word k -> k <> [] ->
  process e x s (line_of name [k]) = process e x s (line_of name' [k]).
Proof.
  intros Hc Hs Hs' Hw Hk.
  assert (forall n u, spelled n c u -> process e x s (line_of n [k]) =
    ((mem_call e s (match c with CIncrement => KIncrement k None | _ => KDecrement k None end)).1,
     call_text e x c (mem_call e s (match c with CIncrement => KIncrement k None | _ => KDecrement k None end)).2)) as H.
  { intros n u Hn. apply (c68_does e x s n c u [k] [k]); [done|by constructor| |by constructor| |].
    - destruct Hc as [-> | ->]; right; exists [k], [], []; by split_and!.
    - rewrite lenN_one. lia.
    - by destruct Hc as [-> | ->]. }
  by rewrite (H _ _ Hs), (H _ _ Hs').
Qed.

(** ** C71: sessions *)

Lemma c71_continues e x lines outs : forall s s' rest, answers e x s lines outs s' ->
  session e x s (lines ++ rest) =
  (transcript outs ++ (session e x s' rest).1, (session e x s' rest).2).
Proof.
  intros s s' rest H. induction H as [s|s line s1 out lines outs s2 Hv Hp _ IH].
  { cbn. by destruct (session e x s rest). }
  cbn [app session]. rewrite Hv, Hp, IH. unfold transcript. cbn. by rewrite <- !app_assoc.
Qed.

Lemma c71_ends e x s line rest err :
  utf8_valid line = true -> parse_line e x (trim_end line) = LErr err ->
  session e x s (line :: rest) = (lit "> "%string, EndError err).
Proof. intros Hv Hp. cbn [session]. rewrite Hv. unfold process. by rewrite Hp. Qed.

Lemma c71_end_of_input e x s : session e x s [] = (lit "> "%string, EndError LENoCommandProvided).
Proof. done. Qed.

(** Every session: some lines are answered, and then it ends, at the end of the input or at a line. *)
Lemma c71_every_session e x lines s :
  exists read rest outs s' how,
    lines = read ++ rest /\ answers e x s read outs s' /\
    session e x s lines = (transcript outs ++ lit "> "%string, how) /\
    match rest with
    | [] => how = EndError LENoCommandProvided
    | line :: _ =>
      if utf8_valid line then
        match (process e x s' (trim_end line)).2 with
        | LOk _ => False
        | LErr err => how = EndError err
        | LPanic => how = EndPanic
        end
      else how = EndInvalidUtf8
    end.
Proof.
  revert s. induction lines as [|line lines IH]; intros s.
  { exists [], [], [], s. eexists. split_and!; [done|constructor|apply c71_end_of_input|done]. }
  destruct (utf8_valid line) eqn:Hv.
  2: { exists [], (line :: lines), [], s, EndInvalidUtf8. split_and!; [done|constructor| |].
       - cbn [session]. by rewrite Hv.
       - by rewrite Hv. }
  destruct (process e x s (trim_end line)) as [s1 [out|err|]] eqn:Hp.
  - destruct (IH s1) as (read & rest & outs & s' & how & -> & Ha & Hs & Hh).
    exists (line :: read), rest, (out :: outs), s', how. split_and!; [done| | |done].
    + by eapply answers_cons.
    + cbn [session app]. rewrite Hv, Hp, Hs. unfold transcript. cbn. by rewrite <- !app_assoc.
  - exists [], (line :: lines), [], s, (EndError err). split_and!; [done|constructor| |].
    + cbn [session]. by rewrite Hv, Hp.
    + by rewrite Hv, Hp.
  - exists [], (line :: lines), [], s, EndPanic. split_and!; [done|constructor| |].
    + cbn [session]. by rewrite Hv, Hp.
    + by rewrite Hv, Hp.
Qed.

Lemma parsed_command e x line req : parse_line e x line = LOk req ->
  exists name words c t, line = line_of name words /\ Forall word words /\ spelled name c t /\
    r_command req = c /\ (c <> CStats -> r_key_type req = Some t).
Proof.
  intros H. destruct (split_line_inv line) as (name & words & Hsplit & -> & Hn & Hw).
  pose proof H as H0. unfold parse_line in H0. rewrite Hsplit in H0.
  destruct name as [|n0 name]; [done|].
  destruct (line_command (n0 :: name)) as [[c ot]|] eqn:Hc; [|done]. clear H0 Hsplit.
  assert (Hs : spelled (n0 :: name) c (default KTBytes ot))
    by (apply line_command_spec; by exists ot).
  exists (n0 :: name), words, c, (default KTBytes ot). split_and!; [done..| |].
  - rewrite (parse_line_words _ _ _ _ c (default KTBytes ot)) in H by done.
    destruct words as [|w words]; [by injection H as <-|].
    destruct (input_args _ _ _ _) as [args| |]; [|done..].
    destruct (line_build e (builder_new_kt c (Some (default KTBytes ot))) args) as [b| |] eqn:Hb; [|done..].
    injection H as <-. by apply line_build_command in Hb.
  - intros Hst. rewrite (parse_line_words _ _ _ _ c (default KTBytes ot)) in H by done.
    destruct words as [|w words]; [by injection H as <-|].
    destruct (input_args _ _ _ _) as [args| |]; [|done..].
    destruct (line_build e (builder_new_kt c (Some (default KTBytes ot))) args) as [b| |] eqn:Hb; [|done..].
    injection H as <-. rewrite builder_new_kt_built in Hb by by apply not_simple.
    apply line_build_inv in Hb as (-> & _); [done|rewrite lenN_nil; lia].
Qed.

Lemma line_of_inj name words name' words' : word name -> Forall word words -> word name' ->
  Forall word words' -> line_of name words = line_of name' words' -> name = name' /\ words = words'.
Proof.
  intros Hn Hw Hn' Hw' E. apply (f_equal (split_on x20)) in E.
  rewrite !split_line in E by done. by injection E.
Qed.

Lemma spelled_fun name c t c' t' : spelled name c t -> spelled name c' t' -> c = c' /\ t = t'.
Proof.
  intros H H'. apply line_command_spec in H as (ot & H & <-). apply line_command_spec in H' as (ot' & H' & <-).
  rewrite H in H'. by injection H' as -> ->.
Qed.

Lemma c59_pairs e x line req :
  parse_line e x line = LOk req -> r_key_type req = Some KTMap ->
  r_command req <> CExists -> r_command req <> CIs -> r_command req <> CStats ->
  carries req [] \/
  exists keys pairs, carries req (keys ++ pairs) /\ length keys = key_words (r_command req) /\
    Nat.even (length pairs) = true.
Proof.
  intros Hp Ht H1 H2 H3.
  destruct (parsed_command _ _ _ _ Hp) as (name & words & c & t & E & Hw & Hs & Hc & Hk).
  apply c58_reads_inv in Hp as (name' & c' & t' & used & extra & args & E' & Hs' & Hw' & _ & Hm & Hr).
  rewrite E in E'. apply line_of_inj in E' as [<- ->]; [|by eapply spelled_word|done|by eapply spelled_word|done].
  destruct (spelled_fun _ _ _ _ _ Hs Hs') as [<- <-]. rewrite Hc in *.
  destruct (Hr H3) as ((_ & Ht' & Ha) & _). rewrite Ht in Ht'. injection Ht' as <-.
  unfold words_mean in Hm.
  destruct c; try done;
    (destruct Hm as [[-> ->]|(keys & rest & rest' & -> & -> & Hl & Hf & He)]; [by left|right];
     rewrite <- (word_same _ _ _ _ (or_introl eq_refl) Hf) in Ha;
     exists keys, rest; split_and!; [done..|by apply He]).
Qed.

(** Words without a meaning *)
Lemma c58_rejects_words e x name c t words :
  spelled name c t -> Forall word words -> (lenN words <= 255)%N ->
  (forall used extra args, words = used ++ extra -> unused t extra -> ~ words_mean x c t used args) ->
  exists err, parse_line e x (line_of name words) = LErr err.
Proof.
  intros Hs Hw Hlen Hno. destruct (spelled_word _ _ _ Hs) as [Hn _].
  pose proof (c58_no_panic e x name words Hn Hw Hlen) as Hp.
  destruct (parse_line e x (line_of name words)) as [req|err|] eqn:E; [|by eexists|done].
  exfalso. apply c58_reads_inv in E as (name' & c' & t' & used & extra & args & E' & Hs' & Hw' & Hu & Hm & _).
  apply line_of_inj in E' as [<- ->]; [|done..|by eapply spelled_word|done].
  destruct (spelled_fun _ _ _ _ _ Hs Hs') as [<- <-]. by eapply Hno.
Qed.

Lemma line_build_empty e c kt l args :
  Exists (fun a => a = []) args -> (lenN l + lenN args <= 255)%N ->
  line_build e (built c kt l) args = LErr (LEBuildingRequest BEArgumentEmpty).
Proof.
  revert l. induction args as [|a args IH]; intros l H Hl; [by inversion H|].
  rewrite lenN_cons in Hl. cbn. destruct (decide (a = [])) as [->|Ha]; [done|].
  rewrite builder_bytes_built by (done || lia).
  apply IH; [by apply Exists_cons in H as [?|?]|]. rewrite lenN_app, lenN_one. lia.
Qed.

Lemma c58_rejects_empty e x name c t words args :
  spelled name c t -> Forall word words -> words_mean x c t words args -> (lenN args <= 255)%N ->
  c <> CStats -> Exists (fun a => a = []) args ->
  parse_line e x (line_of name words) = LErr (LEBuildingRequest BEArgumentEmpty).
Proof.
  intros Hs Hw Hm Hlen Hst He. rewrite (parse_line_words _ _ _ _ c t) by done.
  destruct words as [|w words].
  { apply words_mean_nil in Hm as ->. by inversion He. }
  rewrite (input_args_means x c t (w :: words) args ltac:(done) Hm).
  rewrite builder_new_kt_built by by apply not_simple.
  by rewrite line_build_empty by (done || rewrite lenN_nil; lia).
Qed.

(** Lines of an input *)
Lemma lines_of_concat input : concat (lines_of input) = input.
Proof.
  induction input as [|b input IH]; [done|]. cbn. destruct (decide (b = x0a)) as [->|Hb].
  - cbn. by rewrite IH.
  - destruct (lines_of input) as [|l ls]; cbn in *; by rewrite <- IH.
Qed.

Lemma lines_of_lines input : Forall (fun l => l <> [] /\ (forall p b, l = p ++ [b] -> x0a ∉ p)) (lines_of input).
Proof.
  induction input as [|b input IH]; [constructor|]. cbn. destruct (decide (b = x0a)) as [->|Hb].
  - constructor; [|done]. split; [done|]. intros [|? [|? ?]] c; [set_solver|done..].
  - destruct (lines_of input) as [|l ls] eqn:E.
    + constructor; [|constructor]. split; [done|]. intros [|? [|? ?]] c; [set_solver|done..].
    + apply Forall_cons in IH as [[Hne Hl] IH]. constructor; [|done]. split; [done|].
      intros [|b' p] c Ec.
      * set_solver.
      * injection Ec as -> Ec. specialize (Hl p c Ec). set_solver.
Qed.

(** ** Trimming *)

(** Close the goal if the text starts with the reversed encoding of one of the spaces. *)
Ltac pick_space l :=
  lazymatch l with
  | ?c :: ?l =>
    first [ exists c; split; [apply (bool_decide_unpack _); by vm_compute|reflexivity]
          | pick_space l ]
  end.
Ltac close_space Hu :=
  injection Hu as ->; let l := eval cbv in spaces in pick_space l.

Lemma unspace_sound r r' : unspace r = Some r' ->
  exists c, c ∈ spaces /\ r = rev (utf8_encode c) ++ r'.
Proof.
  intros Hu. destruct r as [|b0 r]; [done|].
  destruct b0; cbn in Hu; try discriminate Hu; try close_space Hu.
  all: destruct r as [|b1 r]; [discriminate Hu|].
  all: destruct b1; cbn in Hu; try discriminate Hu; try close_space Hu.
  all: destruct r as [|b2 r]; [discriminate Hu|].
  all: destruct b2; cbn in Hu; try discriminate Hu; try close_space Hu.
Qed.

Lemma unspace_complete c r : c ∈ spaces -> unspace (rev (utf8_encode c) ++ r) = Some r.
Proof.
  intros H. unfold spaces in H.
  repeat (apply elem_of_cons in H as [->|H]; [reflexivity|]). by apply elem_of_nil in H.
Qed.

Lemma unspaces_spec n r : length r <= n -> exists cs, Forall (fun c => c ∈ spaces) cs /\
  r = concat (map (fun c => rev (utf8_encode c)) cs) ++ unspaces n r /\ unspace (unspaces n r) = None.
Proof.
  revert r. induction n as [|n IH]; intros r Hr.
  { destruct r; [|cbn in Hr; lia]. exists []. by split. }
  cbn. destruct (unspace r) as [r'|] eqn:E.
  - apply unspace_sound in E as (c & Hc & ->).
    destruct (IH r') as (cs & Hcs & E & Hn).
    { rewrite app_length in Hr. assert (0 < length (rev (utf8_encode c))); [|lia].
      rewrite rev_length. unfold utf8_encode. repeat destruct (_ <? _)%N; cbn; lia. }
    exists (c :: cs). split; [by constructor|]. cbn. rewrite <- app_assoc. by rewrite <- E.
  - exists []. by split.
Qed.

Lemma rev_spaces cs : rev (concat (map (fun c => rev (utf8_encode c)) cs)) = concat (map utf8_encode (rev cs)).
Proof.
  induction cs as [|c cs IH]; [done|]. cbn. rewrite rev_app_distr, rev_involutive, IH.
  rewrite map_app, concat_app. cbn. by rewrite app_nil_r.
Qed.

(** [trim_end] removes the whitespace at the end and nothing else. *)
Lemma trim_end_spec s :
  (exists cs, Forall (fun c => c ∈ spaces) cs /\ s = trim_end s ++ concat (map utf8_encode cs)) /\
  forall c p, c ∈ spaces -> trim_end s <> p ++ utf8_encode c.
Proof.
  destruct (unspaces_spec (length s) (rev s)) as (cs & Hcs & E & Hn); [by rewrite rev_length|].
  unfold trim_end. split.
  - exists (rev cs). split; [by apply Forall_rev|]. rewrite <- rev_spaces, <- rev_app_distr, <- E.
    by rewrite rev_involutive.
  - intros c p Hc Ep. apply (f_equal (@rev _)) in Ep. rewrite rev_involutive, rev_app_distr in Ep.
    rewrite Ep in Hn. by rewrite unspace_complete in Hn.
Qed.
