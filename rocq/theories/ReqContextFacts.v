(** Lemmas about the request parser, behind C06 - C09. *)
From Verif Require Import Bytes BytesFacts Value CommandId Request WireSpec
  RequestSpec RequestFacts ReqContext ParserSpec IdsFacts.
From stdpp Require Import gmap list.
From Coq Require Import NArith ZArith Lia.
From Coq Require Import ZifyBool ZifyNat ZifyN.

(** One iteration of the loop. *)
Inductive step_res := SNext (x : req_ctx) | SDone (x : req_ctx) (r : feed_res).

Definition req_step (x : req_ctx) (buf : bytes) : step_res :=
  if (lenN buf <? q_idx x)%N then SDone x FNeedMore
  else match q_stage x with
  | QInit =>
    match req_stage_init x buf with
    | inl err => SDone x (FError err)
    | inr (x', QFinished c kt) => SDone req_ctx_new (FRequest (Request buf c kt []))
    | inr (x', QIncomplete) => SDone x' FNeedMore
    | inr (x', QNext) => SNext x'
    end
  | QKind c kt =>
    match req_stage_kind x buf kt c with
    | (x', QFinished c kt) => SDone req_ctx_new (FRequest (Request buf c kt []))
    | (x', QIncomplete) => SDone x' FNeedMore
    | (x', QNext) => SNext x'
    end
  | QArgs count c kt =>
    match req_stage_args x buf c kt count with
    | Panic => SDone x FPanic
    | Ok (x', QFinished c kt) => SDone req_ctx_new (FRequest (Request buf c kt []))
    | Ok (x', QIncomplete) => SDone x' FNeedMore
    | Ok (x', QNext) => SNext x'
    end
  end.

Lemma req_feed_S f x buf :
  req_feed_fuel (S f) x buf =
  match req_step x buf with
  | SNext x' => req_feed_fuel f x' buf
  | SDone x' r => (x', r)
  end.
Proof.
  cbn [req_feed_fuel]. unfold req_step.
  destruct (lenN buf <? q_idx x)%N; [done|].
  destruct (q_stage x) as [|c kt|n c kt].
  - destruct (req_stage_init x buf) as [err|[x' [c kt| |]]]; done.
  - destruct (req_stage_kind x buf kt c) as [x' [c' kt'| |]]; done.
  - destruct (req_stage_args x buf c kt n) as [[x' [c' kt'| |]]|]; done.
Qed.

(** Inversion of the iterations that go on. *)
Lemma init_next x buf x' :
  req_stage_init x buf = inr (x', QNext) ->
  exists byte rest c, buf = byte :: rest /\ command_id_of_u8 (b2n byte) = Some c /\
    is_simple c = false /\ x' = ReqCtx (q_idx x + 1) (q_positions x) (QKind c None).
Proof.
  unfold req_stage_init. destruct buf as [|byte rest]; [done|].
  destruct (N.shiftr (b2n byte) 7 =? 1)%N eqn:E.
  - assert (key_type_of_u8 (N.shiftr (b2n byte) 1) = None) as ->; [|done].
    revert E. destruct byte; vm_compute; done.
  - destruct (command_id_of_u8 (b2n byte)) as [c|] eqn:Ec; [|done].
    destruct (is_simple c) eqn:Es; [done|]. intros [= <-]. eauto 10.
Qed.

Lemma args_next x buf c kt count x' :
  req_stage_args x buf c kt count = Ok (x', QNext) ->
  exists lb, get_range buf (q_idx x) (q_idx x + 4) = Some lb /\
    (q_idx x + be_dec lb <= lenN buf)%N /\
    (lenN (q_positions x) < 256)%N /\
    (lenN (q_positions x) + 1)%N <> count /\
    x' = ReqCtx (q_idx x + (4 + be_dec lb))%N (q_positions x ++ [(q_idx x + be_dec lb)%N])
                (q_stage x).
Proof.
  unfold req_stage_args, positions_cap.
  destruct (get_range buf (q_idx x) (q_idx x + 4)) as [lb|]; [|done].
  destruct (get_range buf (q_idx x) (q_idx x + be_dec lb)) as [g|] eqn:E; [|done].
  destruct (lenN (q_positions x) <? 256)%N eqn:E1; [|done]. cbn [q_positions].
  rewrite lenN_app, lenN_cons, lenN_nil.
  destruct (lenN (q_positions x) + (1 + 0) =? count)%N eqn:E2; [done|].
  intros [= <-]. exists lb. repeat split; try lia.
  apply get_range_some in E. lia.
Qed.

Definition stage_rank (x : req_ctx) : nat :=
  match q_stage x with QInit => 3 | QKind _ _ => 2 | QArgs _ _ _ => 1 end.

Definition req_measure (x : req_ctx) (buf : bytes) : nat :=
  (length buf - N.to_nat (q_idx x) + stage_rank x)%nat.

Lemma kind_next x buf kt c x' :
  req_stage_kind x buf kt c = (x', QNext) ->
  exists n, get_at buf (q_idx x) = Some n /\
    x' = ReqCtx (q_idx x + 1) (q_positions x) (QArgs (b2n n) c kt).
Proof.
  unfold req_stage_kind. destruct (get_at buf (q_idx x)) as [n|]; [|done].
  intros [= <-]. eauto.
Qed.

Lemma step_measure x buf x' :
  req_step x buf = SNext x' -> (req_measure x' buf < req_measure x buf)%nat.
Proof.
  unfold req_step, req_measure, stage_rank.
  destruct (lenN buf <? q_idx x)%N eqn:E; [done|].
  destruct (q_stage x) as [|c kt|n c kt] eqn:Es.
  - destruct (req_stage_init x buf) as [err|[x1 [c kt| |]]] eqn:E1; try done.
    intros [= <-]. apply init_next in E1 as (b & r & c & -> & _ & _ & ->). cbn. lia.
  - destruct (req_stage_kind x buf kt c) as [x1 [c' kt'| |]] eqn:E1; try done.
    intros [= <-]. apply kind_next in E1 as (n & _ & ->). cbn. lia.
  - destruct (req_stage_args x buf c kt n) as [[x1 [c' kt'| |]]|] eqn:E1; try done.
    intros [= <-]. apply args_next in E1 as (lb & H1 & H2 & H3 & H4 & ->). cbn.
    rewrite Es. apply get_range_some in H1 as (_ & H1 & _). unfold lenN in *. lia.
Qed.

Lemma req_feed_enough f x buf :
  (req_measure x buf < f)%nat -> snd (req_feed_fuel f x buf) <> FFuel.
Proof.
  revert x. induction f as [|f IH]; intros x Hf; [lia|].
  rewrite req_feed_S. destruct (req_step x buf) as [x'|x' r] eqn:E.
  - apply step_measure in E. apply IH. lia.
  - cbn. clear - E. unfold req_step in E.
    destruct (lenN buf <? q_idx x)%N; [by injection E as <- <-|].
    destruct (q_stage x) as [|c kt|n c kt].
    + destruct (req_stage_init x buf) as [err|[x1 [c kt| |]]];
        try done; by injection E as <- <-.
    + destruct (req_stage_kind x buf kt c) as [x1 [c' kt'| |]];
        try done; by injection E as <- <-.
    + destruct (req_stage_args x buf c kt n) as [[x1 [c' kt'| |]]|];
        try done; by injection E as <- <-.
Qed.

Lemma req_measure_le x buf : (req_measure x buf < length buf + 4)%nat.
Proof. unfold req_measure, stage_rank. destruct (q_stage x); lia. Qed.

Lemma req_feed_no_fuel x buf : snd (req_feed x buf) <> FFuel.
Proof. apply req_feed_enough, req_measure_le. Qed.

Lemma req_feed_mono f f' x buf :
  (f <= f')%nat -> snd (req_feed_fuel f x buf) <> FFuel ->
  req_feed_fuel f' x buf = req_feed_fuel f x buf.
Proof.
  revert f' x. induction f as [|f IH]; intros f' x Hle H; [done|].
  destruct f' as [|f']; [lia|]. rewrite !req_feed_S in *.
  destruct (req_step x buf); [|done]. apply IH; [lia|done].
Qed.

(** The loop, without fuel. *)
Lemma req_feed_eq x buf :
  req_feed x buf =
  match req_step x buf with
  | SNext x' => req_feed x' buf
  | SDone x' r => (x', r)
  end.
Proof.
  unfold req_feed at 1. replace (length buf + 4)%nat with (S (length buf + 3))%nat by lia.
  rewrite req_feed_S. destruct (req_step x buf) as [x'|] eqn:E; [|done].
  unfold req_feed. symmetry. apply req_feed_mono; [lia|].
  apply req_feed_enough. apply step_measure in E.
  pose proof (req_measure_le x buf). lia.
Qed.

(** Induction over the iterations. *)
Lemma req_feed_ind (P : req_ctx -> Prop) buf :
  (forall x x', req_step x buf = SNext x' -> P x' -> P x) ->
  (forall x x' r, req_step x buf = SDone x' r -> P x) ->
  forall x, P x.
Proof.
  intros Hn Hd x. remember (req_measure x buf) as n eqn:Hm.
  revert x Hm. induction n as [n IH] using lt_wf_ind. intros x ->.
  destruct (req_step x buf) as [x'|] eqn:E; [|by eapply Hd].
  eapply Hn; [done|]. eapply IH; [|done]. by apply step_measure.
Qed.

(** ** Growing the buffer *)

Lemma step_grow_next x b s x' :
  req_step x b = SNext x' -> req_step x (b ++ s) = SNext x'.
Proof.
  unfold req_step. rewrite lenN_app.
  destruct (lenN b <? q_idx x)%N eqn:E; [done|].
  replace (lenN b + lenN s <? q_idx x)%N with false by lia.
  destruct (q_stage x) as [|c kt|n c kt].
  - unfold req_stage_init. destruct b as [|byte b]; [done|]. cbn [app].
    destruct (if (N.shiftr (b2n byte) 7 =? 1)%N then _ else _); [done|].
    destruct (command_id_of_u8 _); [|done]. by destruct (is_simple _).
  - unfold req_stage_kind. destruct (get_at b (q_idx x)) eqn:E1; [|done].
    by rewrite (get_at_app _ _ _ _ E1).
  - unfold req_stage_args. destruct (get_range b (q_idx x) (q_idx x + 4)) as [lb|] eqn:E1; [|done].
    rewrite (get_range_app _ _ _ _ _ E1).
    destruct (get_range b (q_idx x) (q_idx x + be_dec lb)) eqn:E2; [|done].
    rewrite (get_range_app _ _ _ _ _ E2).
    destruct (lenN (q_positions x) <? positions_cap)%N; [|done].
    by destruct (_ =? n)%N.
Qed.

Lemma step_need_more x b x' : req_step x b = SDone x' FNeedMore -> x' = x.
Proof.
  unfold req_step. destruct (lenN b <? q_idx x)%N eqn:E; [by intros [= <-]|].
  destruct (q_stage x) as [|c kt|n c kt].
  - unfold req_stage_init. destruct b as [|byte b]; [by intros [= <-]|].
    destruct (if (N.shiftr (b2n byte) 7 =? 1)%N then _ else _); [done|].
    destruct (command_id_of_u8 _); [|done]. by destruct (is_simple _).
  - unfold req_stage_kind. destruct (get_at b (q_idx x)); [done|]. by intros [= <-].
  - unfold req_stage_args. destruct (get_range b (q_idx x) (q_idx x + 4)) as [lb|]; [|by intros [= <-]].
    destruct (get_range b (q_idx x) (q_idx x + be_dec lb)); [|by intros [= <-]].
    destruct (lenN (q_positions x) <? positions_cap)%N; [|done].
    by destruct (_ =? n)%N.
Qed.

(** An answer's dependence on the buffer. *)
Definition rebuf (buf : bytes) (r : feed_res) : feed_res :=
  match r with
  | FRequest r => FRequest (Request buf (r_command r) (r_key_type r) (r_positions r))
  | r => r
  end.

Lemma step_grow_done x b s x' r :
  req_step x b = SDone x' r -> r <> FNeedMore ->
  req_step x (b ++ s) = SDone x' (rebuf (b ++ s) r).
Proof.
  unfold req_step. rewrite lenN_app.
  destruct (lenN b <? q_idx x)%N eqn:E; [by intros [= <- <-]|].
  replace (lenN b + lenN s <? q_idx x)%N with false by lia.
  destruct (q_stage x) as [|c kt|n c kt].
  - unfold req_stage_init. destruct b as [|byte b]; [by intros [= <- <-]|]. cbn [app].
    destruct (if (N.shiftr (b2n byte) 7 =? 1)%N then _ else _); [by intros [= <- <-]|].
    destruct (command_id_of_u8 _); [|by intros [= <- <-]].
    destruct (is_simple _); [|done]. by intros [= <- <-].
  - unfold req_stage_kind. destruct (get_at b (q_idx x)) eqn:E1; [done|].
    by intros [= <- <-].
  - unfold req_stage_args.
    destruct (get_range b (q_idx x) (q_idx x + 4)) as [lb|] eqn:E1; [|by intros [= <- <-]].
    rewrite (get_range_app _ _ _ _ _ E1).
    destruct (get_range b (q_idx x) (q_idx x + be_dec lb)) eqn:E2; [|by intros [= <- <-]].
    rewrite (get_range_app _ _ _ _ _ E2).
    destruct (lenN (q_positions x) <? positions_cap)%N; [|by intros [= <- <-]].
    destruct (_ =? n)%N; [|done]. by intros [= <- <-].
Qed.

(** What was fed before an inconclusive answer is not needed again. *)
Lemma feed_grow_more x b s x1 :
  req_feed x b = (x1, FNeedMore) -> req_feed x1 (b ++ s) = req_feed x (b ++ s).
Proof.
  revert x. apply (req_feed_ind (fun x => req_feed x b = (x1, FNeedMore) ->
    req_feed x1 (b ++ s) = req_feed x (b ++ s)) b).
  - intros x x' E IH H. rewrite (req_feed_eq x (b ++ s)).
    rewrite (step_grow_next _ _ _ _ E). apply IH.
    rewrite req_feed_eq, E in H. done.
  - intros x x' r E H. rewrite req_feed_eq, E in H. injection H as -> ->.
    by rewrite (step_need_more _ _ _ E).
Qed.

Lemma feed_grow_done x b s x1 r :
  req_feed x b = (x1, r) -> r <> FNeedMore ->
  req_feed x (b ++ s) = (x1, rebuf (b ++ s) r).
Proof.
  intros H Hr. revert x H. apply (req_feed_ind (fun x => req_feed x b = (x1, r) ->
    req_feed x (b ++ s) = (x1, rebuf (b ++ s) r)) b).
  - intros x x' E IH H. rewrite (req_feed_eq x (b ++ s)).
    rewrite (step_grow_next _ _ _ _ E). apply IH.
    rewrite req_feed_eq, E in H. done.
  - intros x x' r' E H. rewrite req_feed_eq, E in H. injection H as -> ->.
    rewrite req_feed_eq. by rewrite (step_grow_done _ _ _ _ _ E Hr).
Qed.

(** ** The reachable states *)

Definition req_inv (x : req_ctx) : Prop :=
  match q_stage x with
  | QInit => x = req_ctx_new
  | QKind c kt => x = ReqCtx 1 [] (QKind c None)
  | QArgs n c kt =>
    kt = None /\ (n = 0%N \/ (lenN (q_positions x) < n < 256)%N) /\
    (lenN (q_positions x) <= 256)%N
  end.

(** Where an answer can come from. *)
Definition answer_ok (r : feed_res) : Prop :=
  match r with
  | FRequest r => r_key_type r = None /\ r_positions r = []
  | _ => True
  end.

Lemma step_inv x buf :
  req_inv x ->
  match req_step x buf with
  | SNext x' => req_inv x'
  | SDone x' r => req_inv x' /\ answer_ok r
  end.
Proof.
  intros Hx. unfold req_step.
  destruct (lenN buf <? q_idx x)%N eqn:E; [done|].
  destruct (q_stage x) as [|c kt|n c kt] eqn:Es.
  - destruct (req_stage_init x buf) as [err|[x1 [c kt| |]]] eqn:E1; try done.
    + split; [done|]. revert E1. unfold req_stage_init.
      destruct buf; [done|]. destruct (if (_ =? 1)%N then _ else _); [done|].
      destruct (command_id_of_u8 _); [|done]. destruct (is_simple _); [|done].
      intros [= _ _ <-]. done.
    + split; [|done]. revert E1. unfold req_stage_init.
      destruct buf; [by intros [= <-]|]. destruct (if (_ =? 1)%N then _ else _); [done|].
      destruct (command_id_of_u8 _); [|done]. by destruct (is_simple _).
    + apply init_next in E1 as (b & r & c & -> & _ & _ & ->).
      unfold req_inv in Hx. rewrite Es in Hx. by subst.
  - unfold req_stage_kind. destruct (get_at buf (q_idx x)) as [n|]; [|done].
    unfold req_inv in Hx. rewrite Es in Hx. subst. injection Es as <-.
    unfold req_inv. cbn. split; [done|]. pose proof (b2n_lt n). change (lenN (@nil N)) with 0%N. lia.
  - unfold req_inv in Hx. rewrite Es in Hx. destruct Hx as (-> & Hn & Hl).
    destruct (req_stage_args x buf c None n) as [[x1 [c' kt'| |]]|] eqn:E1.
    + split; [done|]. revert E1. unfold req_stage_args.
      destruct (get_range buf _ _); [|done]. destruct (get_range buf _ _); [|done].
      destruct (lenN (q_positions x) <? positions_cap)%N; [|done]. destruct (_ =? n)%N; [|done].
      intros [= _ _ <-]. done.
    + split; [|done]. revert E1. unfold req_stage_args.
      destruct (get_range buf _ _); [|intros [= <-]; unfold req_inv; rewrite Es; done].
      destruct (get_range buf _ _); [|intros [= <-]; unfold req_inv; rewrite Es; done].
      destruct (lenN (q_positions x) <? positions_cap)%N; [|done]. by destruct (_ =? n)%N.
    + apply args_next in E1 as (lb & H1 & H2 & H3 & H4 & ->).
      unfold req_inv. cbn. rewrite Es. rewrite lenN_app, lenN_one. split; [done|lia].
    + split; [|done]. unfold req_inv. by rewrite Es.
Qed.

Lemma feed_inv x buf :
  req_inv x -> req_inv (fst (req_feed x buf)) /\ answer_ok (snd (req_feed x buf)).
Proof.
  revert x. apply (req_feed_ind (fun x => req_inv x ->
    req_inv (fst (req_feed x buf)) /\ answer_ok (snd (req_feed x buf))) buf).
  - intros x x' E IH Hx. rewrite req_feed_eq, E. apply IH.
    pose proof (step_inv x buf Hx) as H. by rewrite E in H.
  - intros x x' r E Hx. rewrite req_feed_eq, E.
    pose proof (step_inv x buf Hx) as H. by rewrite E in H.
Qed.

Lemma feeds_inv x bufs :
  req_inv x -> req_inv (fst (req_feeds x bufs)) /\
  Forall answer_ok (snd (req_feeds x bufs)).
Proof.
  revert x. induction bufs as [|b bufs IH]; intros x Hx; [by split; [|constructor]|].
  cbn [req_feeds]. pose proof (feed_inv x b Hx) as [H1 H2].
  destruct (req_feed x b) as [x1 r]. cbn in H1, H2. specialize (IH x1 H1).
  destruct (req_feeds x1 bufs) as [x2 l]. cbn in *. split; [apply IH|].
  constructor; [done|apply IH].
Qed.

Lemma reachable_inv x : req_reachable x -> req_inv x.
Proof. intros [bufs <-]. by apply feeds_inv. Qed.
