(** The response parser on arbitrary bytes: pieces, trailing bytes, and exactly when it crashes or
    stops making progress (C12, C13, C16). *)
From Verif Require Import Bytes BytesFacts Utf8 Value CommandId Response RespContext
  WireSpec IdsFacts ResponseFacts RespContextFacts RespProps.
From stdpp Require Import gmap list.
From Coq Require Import NArith ZArith Lia.
From Coq Require Import ZifyBool ZifyNat ZifyN.
From Coq.Init Require Import Byte.

(** ** Longer buffers *)

Lemma assert_grow dbg c c' k k' r :
  (c = true -> c' = true) -> (k = Ok r -> k' = Ok r) ->
  assert_then dbg c k = Ok r -> assert_then dbg c' k' = Ok r.
Proof.
  unfold assert_then, debug_assert. intros Hc Hk. destruct dbg; cbn; [|done].
  destruct c; cbn; [|done]. by rewrite Hc.
Qed.

Lemma get_at_grow (l s : bytes) i b : get_at l i = Some b -> get_at (l ++ s) i = Some b.
Proof. rewrite !get_at_lookup. apply lookup_app_l_Some. Qed.

Ltac grow :=
  match goal with
  | H : context [get_range ?b ?i ?j] |- context [get_range (?b ++ ?s) ?i ?j] =>
    let E := fresh "E" in
    destruct (get_range b i j) as [?|] eqn:E;
    [rewrite (get_range_app _ s _ _ _ E)|exfalso; apply ask_ok in H as (? & _ & _ & ->); eauto]
  | H : context [get_at ?b ?i] |- context [get_at (?b ++ ?s) ?i] =>
    let E := fresh "E" in
    destruct (get_at b i) as [?|] eqn:E;
    [rewrite (get_at_grow _ s _ _ E)|exfalso; apply ask_ok in H as (? & _ & _ & ->); eauto]
  end.

(** What a step says is final unless it asks for bytes. *)
Lemma step_grow dbg x b s x' g :
  resp_step dbg x b = Ok (x', g) -> (forall n, g <> GInstr (IReadBytes n)) ->
  resp_step dbg x (b ++ s) = Ok (x', g).
Proof.
  intros H Hg. revert H. unfold resp_step.
  destruct (s_stage x) as [| |k rl| |len| | |acc len|acc len| | |acc len|len].
  all: unfold resp_stage_init, resp_stage_determine, resp_stage_type_init, resp_stage_boolean,
    resp_stage_bytes, resp_stage_float, resp_stage_integer, resp_stage_list, resp_stage_map,
    resp_stage_dispatch_error, resp_stage_parse_error, resp_stage_set, resp_stage_string.
  all: cbv zeta.
  all: repeat (apply assert_grow; [rewrite ?lenN_app; lia|]).
  all: intros H; repeat grow; try exact H; try (exfalso; by eapply Hg).
  destruct (_ <? _)%N eqn:E1 in H.
  { apply ask_ok in H as (? & _ & _ & ->). exfalso. by eapply Hg. }
  by replace (lenN (b ++ s) <? _)%N with false by (rewrite lenN_app; lia).
Qed.

Lemma step_ask dbg x b x' n :
  resp_step dbg x b = Ok (x', GInstr (IReadBytes n)) -> x' = x.
Proof.
  unfold resp_step.
  destruct (s_stage x) as [| |k rl| |len| | |acc len|acc len| | |acc len|len].
  all: unfold resp_stage_init, resp_stage_determine, resp_stage_type_init, resp_stage_boolean,
    resp_stage_bytes, resp_stage_float, resp_stage_integer, resp_stage_list, resp_stage_map,
    resp_stage_dispatch_error, resp_stage_parse_error, resp_stage_set, resp_stage_string.
  all: cbv zeta; intros H; repeat apply assert_then_ok in H.
  all: repeat match type of H with context [match ?y with _ => _ end] => destruct y end.
  all: try (apply ask_ok in H as (? & _ & -> & _); done).
  all: repeat apply assert_then_ok in H; try done.
Qed.

(** Asking for bytes forgets nothing. *)
Lemma c12_resume dbg x b s x1 n :
  resp_feed dbg x b = (x1, PReadBytes n) -> resp_feed dbg x1 (b ++ s) = resp_feed dbg x (b ++ s).
Proof.
  revert x. apply (resp_feed_ind dbg b (fun x =>
    resp_feed dbg x b = (x1, PReadBytes n) -> resp_feed dbg x1 (b ++ s) = resp_feed dbg x (b ++ s))).
  - intros x x' E IH H. rewrite resp_feed_eq, E in H. rewrite (IH H).
    rewrite (resp_feed_eq dbg x (b ++ s)). by rewrite (step_grow _ _ _ s _ _ E).
  - intros x Hn H. rewrite resp_feed_eq in H.
    destruct (resp_step dbg x b) as [[x' [err|[r|m]|]]|] eqn:E; try done.
    + injection H as <- <-. by rewrite (step_ask _ _ _ _ _ E).
    + by destruct (Hn x').
Qed.

(** Later bytes change no answer. *)
Lemma c13_any_input dbg x b s x1 r :
  resp_feed dbg x b = (x1, r) -> (forall n, r <> PReadBytes n) -> r <> PPanic ->
  resp_feed dbg x (b ++ s) = (x1, r).
Proof.
  intros H Hr Hp. revert x H. apply (resp_feed_ind dbg b (fun x =>
    resp_feed dbg x b = (x1, r) -> resp_feed dbg x (b ++ s) = (x1, r))).
  - intros x x' E IH H. rewrite resp_feed_eq, E in H. rewrite resp_feed_eq.
    rewrite (step_grow _ _ _ s _ _ E) by done. by apply IH.
  - intros x Hn H. rewrite resp_feed_eq in H |- *.
    destruct (resp_step dbg x b) as [[x' [err|[r'|m]|]]|] eqn:E.
    + by rewrite (step_grow _ _ _ s _ _ E).
    + by rewrite (step_grow _ _ _ s _ _ E).
    + injection H as <- <-. exfalso. by eapply Hr.
    + by destruct (Hn x').
    + injection H as <- <-. done.
Qed.

(** ** Crashes and stalls *)

Definition in_items (x : resp_ctx) (buf : bytes) : Prop :=
  (7 <= s_idx x <= lenN buf)%N /\
  match s_stage x with SList _ _ | SMap _ _ | SSet _ _ => True | _ => False end.

Lemma remaining_ok dbg start read to :
  (0 < start)%N -> (read < start + to)%N ->
  exists n, remaining_bytes dbg start read to = Ok n /\ (1 <= n)%N.
Proof.
  intros. unfold remaining_bytes, debug_assert.
  replace (0 <? start)%N with true by lia. replace (read <=? start + to)%N with true by lia.
  rewrite !andb_false_r. cbn. eexists. split; [done|]. lia.
Qed.

Lemma usize_sub_ok dbg a b : (b < a)%N -> exists n, usize_sub dbg a b = Ok n /\ (1 <= n)%N.
Proof.
  intros. unfold usize_sub, usub. replace (b <=? a)%N with true by lia. eexists. split; [done|]. lia.
Qed.

Definition harmless (buf : bytes) (o : stage_out) : Prop :=
  exists x' g, o = Ok (x', g) /\
  match g with
  | GContinue => in_items x' buf
  | GInstr (IReadBytes n) => (1 <= n)%N
  | _ => True
  end.

Lemma ask_harmless buf x o : (exists n, o = Ok n /\ (1 <= n)%N) -> harmless buf (ask x o).
Proof. intros (n & -> & Hn). cbn. eexists _, _. split; [done|]. done. Qed.

Lemma conclude_harmless buf x r : harmless buf (conclude x r).
Proof. eexists _, _. split; [done|]. done. Qed.

Lemma range_missing buf i j : (i <= j)%N -> get_range buf i j = None -> (lenN buf < j)%N.
Proof. intros Hij H. apply get_range_none in H as [?|?]; lia. Qed.

Lemma items_step dbg x buf : in_items x buf -> harmless buf (resp_step dbg x buf).
Proof.
  unfold in_items at 1, resp_step. intros [Hi Hs].
  destruct (s_stage x) as [| |k rl| |len| | |acc len|acc len| | |acc len|len]; try done.
  all: unfold resp_stage_list, resp_stage_map, resp_stage_set; cbv zeta.
  all: rewrite !assert_then_true by lia.
  - destruct (get_range buf (s_idx x) _) as [h|] eqn:E.
    2:{ apply range_missing in E; [|lia]. apply ask_harmless, remaining_ok; lia. }
    destruct (get_range buf (s_idx x + 4) _) as [a|] eqn:E2.
    2:{ apply range_missing in E2; [|lia]. apply ask_harmless, usize_sub_ok; lia. }
    destruct (_ <? _)%N; [|apply conclude_harmless].
    apply get_range_some in E2 as (? & ? & _). eexists _, _. split; [done|]. split; [cbn; lia|done].
  - destruct (get_range buf (s_idx x) _) as [h|] eqn:E.
    2:{ apply range_missing in E; [|lia]. apply ask_harmless, remaining_ok; lia. }
    destruct (get_range buf (s_idx x + 1) _) as [k|] eqn:E2.
    2:{ apply range_missing in E2; [|lia]. apply ask_harmless, remaining_ok; lia. }
    destruct (get_range buf (s_idx x + 1 + be_dec h) _) as [h2|] eqn:E3.
    2:{ apply range_missing in E3; [|lia]. apply ask_harmless, remaining_ok; lia. }
    destruct (get_range buf (s_idx x + 1 + be_dec h + 4) _) as [v|] eqn:E4.
    2:{ apply range_missing in E4; [|lia]. apply ask_harmless, remaining_ok; lia. }
    destruct (_ <? _)%N; [|apply conclude_harmless].
    apply get_range_some in E4 as (? & ? & _). eexists _, _. split; [done|]. split; [cbn; lia|done].
  - destruct (get_range buf (s_idx x) _) as [h|] eqn:E.
    2:{ apply range_missing in E; [|lia]. apply ask_harmless, remaining_ok; lia. }
    destruct (get_range buf (s_idx x + 2) _) as [a|] eqn:E2.
    2:{ apply range_missing in E2; [|lia]. apply ask_harmless, remaining_ok; lia. }
    destruct (_ <? _)%N; [|apply conclude_harmless].
    apply get_range_some in E2 as (? & ? & _). eexists _, _. split; [done|]. split; [cbn; lia|done].
Qed.

(** Neither a crash nor a request for nothing. *)
Definition sound (r : resp_feed_res) : Prop :=
  match r with PPanic => False | PReadBytes n => (1 <= n)%N | _ => True end.

Lemma items_sound dbg buf x : in_items x buf -> sound (resp_feed dbg x buf).2.
Proof.
  revert x. apply (resp_feed_ind dbg buf (fun x => in_items x buf -> sound (resp_feed dbg x buf).2)).
  - intros x x' E IH Hx. destruct (items_step dbg x buf Hx) as (y & g & E' & Hg).
    rewrite E in E'. injection E' as <- <-. rewrite resp_feed_eq, E. by apply IH.
  - intros x Hn Hx. destruct (items_step dbg x buf Hx) as (y & g & E & Hg).
    rewrite resp_feed_eq, E. destruct g as [err|[r|n]|]; try done. by apply Hn in E.
Qed.

(** Each kind of message, once it is whole: [bad] says that it crashes, [stuck] that it stalls. *)
Definition judged (r : resp_feed_res) (bad stuck : Prop) : Prop :=
  (r = PPanic <-> bad) /\ (r = PReadBytes 0 <-> stuck).

Lemma judged_sound r : sound r -> judged r False False.
Proof. intros H. destruct r; cbn in H; (split; split; try done). intros [= ->]. lia. Qed.

Lemma whole_message buf kind rest :
  message_in buf kind rest ->
  forall dbg, resp_feed dbg resp_ctx_new buf = resp_feed dbg (RespCtx 4 SDetermineType) buf.
Proof.
  intros (h & -> & Hh & Hl) dbg. rewrite resp_feed_eq. unfold resp_step. cbn [s_stage resp_ctx_new].
  unfold resp_stage_init. cbn [s_idx]. rewrite assert_then_true by done.
  replace (get_range (h ++ kind :: rest) 0 4) with (Some h).
  2:{ symmetry. pose proof (get_range_app_mid [] h (kind :: rest) 0 4) as H. cbn [app] in H.
      apply H; [done|]. rewrite lenN_nil. lia. }
  cbv zeta. replace (_ <? _)%N with false; [done|]. rewrite lenN_app, lenN_cons. lia.
Qed.

Lemma no_message dbg buf :
  (forall kind rest, ~ message_in buf kind rest) -> judged (resp_feed dbg resp_ctx_new buf).2 False False.
Proof.
  intros Hno. destruct (decide (lenN buf < 4)%N) as [Hs|Hs].
  { destruct (c16_incomplete dbg buf) as (n & -> & Hn); [by left|]. by apply judged_sound. }
  set (h := take 4 buf). set (t := drop 4 buf).
  assert (Hbuf : buf = h ++ t) by (symmetry; apply take_drop).
  assert (Hh : lenN h = 4%N) by (unfold h, lenN in *; rewrite take_length; lia).
  clearbody h t. subst buf.
  destruct (decide (lenN t < be_dec h)%N) as [Hlt|Hge].
  { destruct (c16_incomplete dbg (h ++ t)) as (n & -> & Hn); [right; eauto|]. by apply judged_sound. }
  destruct t as [|kind rest].
  2:{ exfalso. eapply Hno. exists h. split; [done|]. split; [done|]. rewrite lenN_cons in Hge. lia. }
  rewrite lenN_nil in Hge. apply judged_sound.
  rewrite resp_feed_eq. unfold resp_step. cbn [s_stage resp_ctx_new].
  unfold resp_stage_init. cbn [s_idx]. rewrite assert_then_true by done.
  replace (get_range (h ++ []) 0 4) with (Some h).
  2:{ symmetry. pose proof (get_range_app_mid [] h [] 0 4) as H. cbn [app] in H.
      apply H; [done|]. rewrite lenN_nil. lia. }
  cbv zeta. replace (_ <? _)%N with false by (rewrite lenN_app, lenN_nil; lia).
  rewrite resp_feed_eq. unfold resp_step. cbn [s_stage]. unfold resp_stage_determine. cbn [s_idx].
  rewrite assert_then_true by done. rewrite get_at_lookup.
  rewrite lookup_ge_None_2; [cbn; lia|]. rewrite app_nil_r. unfold lenN in Hh. lia.
Qed.

Lemma get_at_5 h (kind code : byte) r :
  lenN h = 4%N -> get_at (h ++ kind :: code :: r) 5 = Some code.
Proof.
  intros Hh. rewrite get_at_lookup. rewrite lookup_app_r by (unfold lenN in Hh; lia).
  replace (N.to_nat 5 - length h)%nat with 1%nat by (unfold lenN in Hh; lia). done.
Qed.

Lemma get_at_5_none h (kind : byte) : lenN h = 4%N -> get_at (h ++ [kind]) 5 = None.
Proof.
  intros Hh. rewrite get_at_lookup. apply lookup_ge_None_2. rewrite app_length. cbn.
  unfold lenN in Hh. lia.
Qed.

Lemma kind_judged dbg h kind rest :
  lenN h = 4%N ->
  judged (resp_feed dbg (RespCtx 4 SDetermineType) (h ++ kind :: rest)).2
    (match response_type_of_u8 (b2n kind) with
     | Some RTDispatchError => exists code r, rest = code :: r /\ dispatch_error_of_u8 (b2n code) = None
     | Some RTParseError => exists code r, rest = code :: r /\ parse_error_of_u8 (b2n code) = None
     | Some RTList | Some RTMap | Some RTSet => dbg = true /\ (lenN rest < 2)%N
     | Some RTString => dbg = true /\ (1 <= lenN rest < 4)%N
     | Some RTBytes =>
       dbg = true /\ ((1 <= lenN rest < 4)%N \/ take 4 rest = [x00; x00; x00; x00])
     | _ => False
     end)
    (rest = [] /\ (response_type_of_u8 (b2n kind) = Some RTBytes \/
                   response_type_of_u8 (b2n kind) = Some RTString)).
Proof.
  intros Hh. set (buf := h ++ kind :: rest).
  assert (Hlen : lenN buf = (5 + lenN rest)%N) by (unfold buf; rewrite lenN_app, lenN_cons; lia).
  rewrite resp_feed_eq. unfold resp_step. cbn [s_stage]. unfold resp_stage_determine. cbn [s_idx].
  rewrite assert_then_true by done.
  assert (Hk4 : get_at buf 4 = Some kind).
  { rewrite get_at_lookup. unfold buf. rewrite lookup_app_r by (unfold lenN in Hh; lia).
    by replace (N.to_nat 4 - length h)%nat with 0%nat by (unfold lenN in Hh; lia). }
  rewrite Hk4.
  destruct (response_type_of_u8 (b2n kind)) as [k|] eqn:Hk; [|split; split; naive_solver].
  change (4 + 1)%N with 5%N.
  assert (Hcoll : k = RTList \/ k = RTMap \/ k = RTSet ->
    judged (resp_feed dbg (RespCtx 5 (STypeInit k 2)) buf).2
      (dbg = true /\ (lenN rest < 2)%N) False).
  { intros Hcoll. rewrite resp_feed_eq. unfold resp_step. cbn [s_stage].
    unfold resp_stage_type_init. cbn [s_idx]. rewrite assert_then_true by done.
    destruct (get_range buf 5 (5 + 2)) as [l|] eqn:E.
    - apply get_range_some in E as (_ & E & El & _). rewrite assert_then_true by lia. cbv zeta.
      assert (Hin : forall st, match st with SList _ _ | SMap _ _ | SSet _ _ => True | _ => False end ->
        judged (resp_feed dbg (RespCtx (5 + 2) st) buf).2 (dbg = true /\ (lenN rest < 2)%N) False).
      { intros st Hst. destruct (judged_sound (resp_feed dbg (RespCtx (5 + 2) st) buf).2) as [H1 H2].
        - apply items_sound. split; [cbn; lia|done].
        - split; [|done]. rewrite H1. split; [done|]. lia. }
      destruct Hcoll as [->|[->| ->]]; try (by apply Hin).
      destruct (be_dec l =? 0)%N; [|by apply Hin]. cbn. split; split; try done. lia.
    - apply range_missing in E; [|lia]. unfold usize_sub, usub.
      replace (lenN buf <=? 2 + 1)%N with false by lia.
      destruct dbg; cbn.
      + split; split; try done. intros _. split; [done|lia].
      + split; split; try done; [by intros [? _]|]. intros [= H].
        rewrite N.mod_small in H; unfold u64_mod in *; lia. }
  assert (Hrun : k = RTBytes \/ k = RTString -> (lenN rest < 4)%N ->
    judged (resp_feed dbg (RespCtx 5 (STypeInit k 4)) buf).2
      (dbg = true /\ (1 <= lenN rest < 4)%N) (rest = [])).
  { intros _ Hs. rewrite resp_feed_eq. unfold resp_step. cbn [s_stage].
    unfold resp_stage_type_init. cbn [s_idx]. rewrite assert_then_true by done.
    rewrite get_range_too_far by lia. unfold usize_sub, usub.
    destruct rest as [|c r].
    - rewrite lenN_nil in *. replace (lenN buf <=? 4 + 1)%N with true by lia. cbn.
      split; split; try done; [lia|]. intros _. do 2 f_equal. lia.
    - rewrite lenN_cons in *. replace (lenN buf <=? 4 + 1)%N with false by lia.
      destruct dbg; cbn.
      + split; split; try done. intros _. split; [done|lia].
      + split; split; try done; [by intros [? _]|]. intros [= H].
        rewrite N.mod_small in H; unfold u64_mod in *; lia. }
  assert (Hlong : (4 <= lenN rest)%N -> get_range buf 5 (5 + 4) = Some (take 4 rest)).
  { intros H. unfold buf. replace (h ++ kind :: rest) with ((h ++ [kind]) ++ take 4 rest ++ drop 4 rest)
      by (rewrite take_drop, <-app_assoc; done).
    apply get_range_app_mid; rewrite lenN_app, lenN_one; [lia|].
    unfold lenN in *. rewrite take_length. lia. }
  assert (Htake : (4 <= lenN rest)%N -> lenN (take 4 rest) = 4%N).
  { intros H. unfold lenN in *. rewrite take_length. lia. }
  destruct k.
  - (* boolean *) rewrite resp_feed_eq. unfold resp_step. cbn [s_stage].
    unfold resp_stage_boolean. cbn [s_idx]. rewrite assert_then_true by done.
    destruct (get_at buf 5); cbn; split; split; naive_solver.
  - (* bytes *) destruct (decide (lenN rest < 4)%N) as [Hs|Hs].
    + destruct (Hrun (or_introl eq_refl) Hs) as [H1 H2]. split; [rewrite H1|rewrite H2].
      * split; [intros [? ?]; auto|]. intros [? [?|Ht]]; [done|].
        apply (f_equal length) in Ht. exfalso. rewrite take_length in Ht. cbn [length] in Ht. unfold lenN in Hs. lia.
      * split; [auto|by intros [? _]].
    + rewrite resp_feed_eq. unfold resp_step. cbn [s_stage].
      unfold resp_stage_type_init. cbn [s_idx]. rewrite assert_then_true by done.
      rewrite Hlong by lia. rewrite assert_then_true by (rewrite Htake; lia). cbv zeta.
      rewrite resp_feed_eq. unfold resp_step. cbn [s_stage]. unfold resp_stage_bytes. cbn [s_idx].
      rewrite assert_then_true by done.
      assert (Hz : be_dec (take 4 rest) = 0%N <-> take 4 rest = [x00; x00; x00; x00]).
      { split; [|by intros ->]. intros H. rewrite <-(be_enc_dec 4 (take 4 rest)), H; [reflexivity|].
        specialize (Htake ltac:(lia)). unfold lenN in Htake. lia. }
      unfold assert_then, debug_assert.
      destruct (be_dec (take 4 rest) =? 0)%N eqn:Ez.
      * apply N.eqb_eq in Ez. rewrite Ez, (proj1 Hz Ez). cbn [negb]. destruct dbg; cbn [andb obind].
        -- split; split; try done; [auto|]. intros [-> _]. rewrite lenN_nil in Hs. lia.
        -- destruct (get_range_is_some buf (5 + 4) (5 + 4 + 0)) as [bs ->]; [lia|lia|].
           cbn. split; split; try done; [by intros [? _]|]. intros [-> _]. rewrite lenN_nil in Hs. lia.
      * cbn [negb]. rewrite andb_false_r. cbn [obind].
        assert (Hn : take 4 rest <> [x00; x00; x00; x00]) by (intros H; apply Hz in H; lia).
        assert (Hne : rest <> []) by (intros ->; rewrite lenN_nil in Hs; lia).
        destruct (get_range buf (5 + 4) (5 + 4 + be_dec (take 4 rest))) as [bs|] eqn:E.
        -- cbn. split; split; try done; [intros [_ [?|?]]; [lia|done]|by intros [? _]].
        -- apply range_missing in E; [|lia].
           destruct (remaining_ok dbg (5 + 4) (lenN buf) (be_dec (take 4 rest))) as (n & -> & Hn1); [lia|lia|].
           cbn. split; split; try done; [intros [_ [?|?]]; [lia|done]|intros [= ->]; lia|by intros [? _]].
  - (* float *) rewrite resp_feed_eq. unfold resp_step. cbn [s_stage].
    unfold resp_stage_float. cbn [s_idx]. rewrite assert_then_true by done.
    destruct (get_range buf 5 (5 + 8)); cbn; split; split; naive_solver.
  - (* integer *) rewrite resp_feed_eq. unfold resp_step. cbn [s_stage].
    unfold resp_stage_integer. cbn [s_idx]. rewrite assert_then_true by done.
    destruct (get_range buf 5 (5 + 8)); cbn; split; split; naive_solver.
  - destruct Hcoll as [H1 H2]; [auto|]. split; [done|]. rewrite H2. naive_solver.
  - destruct Hcoll as [H1 H2]; [auto|]. split; [done|]. rewrite H2. naive_solver.
  - destruct Hcoll as [H1 H2]; [auto|]. split; [done|]. rewrite H2. naive_solver.
  - (* string *) destruct (decide (lenN rest < 4)%N) as [Hs|Hs].
    + destruct (Hrun (or_intror eq_refl) Hs) as [H1 H2]. split; [done|rewrite H2].
      split; [auto|by intros [? _]].
    + assert (Hne : rest <> []) by (intros ->; rewrite lenN_nil in Hs; lia).
      rewrite resp_feed_eq. unfold resp_step. cbn [s_stage].
      unfold resp_stage_type_init. cbn [s_idx]. rewrite assert_then_true by done.
      rewrite Hlong by lia. rewrite assert_then_true by (rewrite Htake; lia). cbv zeta.
      destruct (be_dec (take 4 rest) =? 0)%N eqn:Ez.
      { cbn. split; split; try done; [lia|by intros [? _]]. }
      rewrite resp_feed_eq. unfold resp_step. cbn [s_stage]. unfold resp_stage_string. cbn [s_idx].
      rewrite !assert_then_true by lia.
      destruct (get_range buf (5 + 4) (5 + 4 + be_dec (take 4 rest))) as [bs|] eqn:E.
      * destruct (from_utf8 bs); cbn; split; split; try done; try lia; by intros [? _].
      * apply range_missing in E; [|lia].
        destruct (usize_sub_ok dbg (5 + 4 + be_dec (take 4 rest)) (lenN buf)) as (n & -> & Hn1); [lia|].
        cbn. split; split; try done; [lia|intros [= ->]; lia|by intros [? _]].
  - (* parse error *) rewrite resp_feed_eq. unfold resp_step. cbn [s_stage].
    unfold resp_stage_parse_error. cbn [s_idx]. rewrite assert_then_true by done. unfold buf.
    destruct rest as [|code r].
    + rewrite get_at_5_none by done. cbn. split; split; naive_solver.
    + rewrite get_at_5 by done. destruct (parse_error_of_u8 (b2n code)) eqn:Ec; cbn;
        split; split; naive_solver.
  - (* dispatch error *) rewrite resp_feed_eq. unfold resp_step. cbn [s_stage].
    unfold resp_stage_dispatch_error. cbn [s_idx]. rewrite assert_then_true by done. unfold buf.
    destruct rest as [|code r].
    + rewrite get_at_5_none by done. cbn. split; split; naive_solver.
    + rewrite get_at_5 by done. destruct (dispatch_error_of_u8 (b2n code)) eqn:Ec; cbn;
        split; split; naive_solver.
Qed.

Lemma message_dec buf :
  (exists kind rest, message_in buf kind rest) \/ (forall kind rest, ~ message_in buf kind rest).
Proof.
  destruct (decide (lenN buf <= 4)%N) as [Hs|Hs].
  { right. intros kind rest (h & -> & Hh & _). rewrite lenN_app, lenN_cons in Hs. lia. }
  set (h := take 4 buf). set (t := drop 4 buf).
  assert (Hbuf : buf = h ++ t) by (symmetry; apply take_drop).
  assert (Hh : lenN h = 4%N) by (unfold h, lenN in *; rewrite take_length; lia).
  clearbody h t. subst buf. destruct t as [|kind rest].
  { rewrite lenN_app, lenN_nil in Hs. lia. }
  destruct (decide (be_dec h <= 1 + lenN rest)%N) as [Hl|Hl].
  - left. exists kind, rest, h. done.
  - right. intros kind' rest' (h' & E & Hh' & Hl').
    apply app_inj_1 in E as [-> E]; [|unfold lenN in *; lia]. injection E as -> ->. done.
Qed.

Lemma message_in_inj buf kind rest kind' rest' :
  message_in buf kind rest -> message_in buf kind' rest' -> kind = kind' /\ rest = rest'.
Proof.
  intros (h & -> & Hh & _) (h' & E & Hh' & _).
  apply app_inj_1 in E as [_ E]; [|unfold lenN in *; lia]. by injection E as -> ->.
Qed.

Lemma c16_judged dbg buf :
  judged (resp_feed dbg resp_ctx_new buf).2 (crashes dbg buf) (stalls buf).
Proof.
  destruct (message_dec buf) as [(kind & rest & Hm)|Hno].
  - rewrite (whole_message _ _ _ Hm). pose proof Hm as (h & -> & Hh & _).
    destruct (kind_judged dbg h kind rest Hh) as [H1 H2]. split; [rewrite H1|rewrite H2].
    + split; [intros H; by exists kind, rest|].
      intros (kind' & rest' & Hm' & H). by destruct (message_in_inj _ _ _ _ _ Hm Hm') as [<- <-].
    + split; [intros [-> H]; by exists kind|].
      intros (kind' & Hm' & H). by destruct (message_in_inj _ _ _ _ _ Hm Hm') as [<- ->].
  - destruct (no_message dbg buf Hno) as [H1 H2]. split; [rewrite H1|rewrite H2].
    + split; [done|]. intros (kind & rest & Hm & _). by eapply Hno.
    + split; [done|]. intros (kind & Hm & _). by eapply Hno.
Qed.

Lemma c16_crashes dbg buf : (resp_feed dbg resp_ctx_new buf).2 = PPanic <-> crashes dbg buf.
Proof. apply c16_judged. Qed.

Lemma c16_stalls dbg buf : (resp_feed dbg resp_ctx_new buf).2 = PReadBytes 0 <-> stalls buf.
Proof. apply c16_judged with (dbg := dbg). Qed.
