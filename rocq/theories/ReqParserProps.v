(** The lemmas behind C06 - C09. *)
From Verif Require Import Bytes BytesFacts Value CommandId Request WireSpec
  RequestSpec RequestFacts RequestProps ReqContext ParserSpec IdsFacts
  ReqContextFacts.
From stdpp Require Import gmap list.
From Coq Require Import NArith ZArith Lia.
From Coq Require Import ZifyBool ZifyNat ZifyN.

Global Arguments req_feed : simpl never.

(** ** Parsing what was sent *)

Lemma parse_args pre l s pos n c :
  l <> [] -> (lenN pos + lenN l = n)%N -> (n <= 255)%N ->
  Forall (fun a => lenN a < u32_mod)%N l ->
  req_feed (ReqCtx (lenN pre) pos (QArgs n c None))
           (pre ++ concat (map wire_arg l) ++ s)
  = (req_ctx_new, FRequest (Request (pre ++ concat (map wire_arg l) ++ s) c None [])).
Proof.
  revert pre pos. induction l as [|a l IH]; intros pre pos Hne Hn H255 Hl; [done|].
  apply Forall_cons in Hl as [Ha Hl]. rewrite lenN_cons in Hn.
  set (buf := pre ++ concat (map wire_arg (a :: l)) ++ s).
  assert (Hbuf : buf = pre ++ be_enc 4 (lenN a) ++ (a ++ concat (map wire_arg l) ++ s)).
  { unfold buf, wire_arg. cbn. by rewrite <-!app_assoc. }
  rewrite req_feed_eq. unfold req_step. cbn [q_idx q_stage].
  assert (Hlen : (lenN pre + 4 + lenN a <= lenN buf)%N).
  { rewrite Hbuf, !lenN_app, be_enc_lenN. lia. }
  replace (lenN buf <? lenN pre)%N with false by lia.
  unfold req_stage_args. cbn [q_idx q_positions q_stage].
  assert (get_range buf (lenN pre) (lenN pre + 4) = Some (be_enc 4 (lenN a))) as ->.
  { rewrite Hbuf. apply get_range_app_mid; [done|]. by rewrite be_enc_lenN. }
  rewrite be4 by done.
  destruct (get_range_is_some buf (lenN pre) (lenN pre + lenN a)) as [g ->]; [lia|lia|].
  unfold positions_cap. replace (lenN pos <? 256)%N with true by lia.
  rewrite lenN_app, lenN_one.
  destruct l as [|a' l'].
  - rewrite lenN_nil in Hn. by replace (lenN pos + 1 =? n)%N with true by lia.
  - replace (lenN pos + 1 =? n)%N with false by (rewrite lenN_cons in Hn; lia).
    specialize (IH (pre ++ wire_arg a) (pos ++ [(lenN pre + lenN a)%N])).
    replace (lenN pre + (4 + lenN a))%N with (lenN (pre ++ wire_arg a))
      by (unfold wire_arg; rewrite !lenN_app, be_enc_lenN; lia).
    replace buf with ((pre ++ wire_arg a) ++ concat (map wire_arg (a' :: l')) ++ s)
      by (unfold buf; cbn; by rewrite <-!app_assoc).
    apply IH; [done| |done|done]. rewrite lenN_app, lenN_one. lia.
Qed.

Lemma init_untyped c rest :
  is_simple c = false ->
  req_feed req_ctx_new (n2b (command_id_to_u8 c) :: rest) =
  req_feed (ReqCtx 1 [] (QKind c None)) (n2b (command_id_to_u8 c) :: rest).
Proof.
  intros Hs. rewrite req_feed_eq. unfold req_step. cbn [q_idx q_stage req_ctx_new].
  replace (_ <? 0)%N with false by (rewrite lenN_cons; lia).
  unfold req_stage_init. cbn [q_idx q_positions].
  replace (N.shiftr (b2n (n2b (command_id_to_u8 c))) 7 =? 1)%N with false
    by (destruct c; vm_compute; done).
  replace (command_id_of_u8 (b2n (n2b (command_id_to_u8 c)))) with (Some c)
    by (destruct c; vm_compute; done).
  by rewrite Hs.
Qed.

Lemma parse_untyped c l s :
  is_simple c = false -> l <> [] -> (lenN l <= 255)%N ->
  Forall (fun a => lenN a < u32_mod)%N l ->
  req_feed req_ctx_new (wire_request c None l ++ s)
  = (req_ctx_new, FRequest (Request (wire_request c None l ++ s) c None [])).
Proof.
  intros Hs Hne Hlen Hl. unfold wire_request, wire_head. cbn [app].
  rewrite init_untyped by done. rewrite req_feed_eq. unfold req_step.
  cbn [q_idx q_stage].
  replace (_ <? 1)%N with false by (rewrite !lenN_cons; lia).
  unfold req_stage_kind. cbn [q_idx q_positions].
  assert (get_at (n2b (command_id_to_u8 c) :: n2b (lenN l) ::
                  (concat (map wire_arg l) ++ s)) 1 = Some (n2b (lenN l))) as ->.
  { by rewrite get_at_lookup. }
  rewrite b2n_n2b_small by (unfold u8_mod; lia).
  pose proof (parse_args [n2b (command_id_to_u8 c); n2b (lenN l)] l s [] (lenN l) c) as H.
  cbn [app] in H. apply H; done.
Qed.

Lemma parse_typed c rest :
  req_feed req_ctx_new (n2b (128 + command_id_to_u8 c) :: rest)
  = (req_ctx_new, FError PEKeyTypeInvalid).
Proof.
  rewrite req_feed_eq. unfold req_step. cbn [q_idx q_stage req_ctx_new].
  replace (_ <? 0)%N with false by (rewrite lenN_cons; lia).
  unfold req_stage_init.
  replace (N.shiftr (b2n (n2b (128 + command_id_to_u8 c))) 7 =? 1)%N with true
    by (destruct c; vm_compute; done).
  by replace (key_type_of_u8 (N.shiftr (b2n (n2b (128 + command_id_to_u8 c))) 1))
    with (@None key_type) by (destruct c; vm_compute; done).
Qed.

Lemma parse_no_args c :
  is_simple c = false ->
  snd (req_feed req_ctx_new (wire_request c None [])) = FNeedMore.
Proof. destruct c; (done || (intros _; vm_compute; done)). Qed.

Lemma parse_simple c s :
  is_simple c = true ->
  req_feed req_ctx_new (n2b (command_id_to_u8 c) :: s)
  = (req_ctx_new, FRequest (Request (n2b (command_id_to_u8 c) :: s) c None [])).
Proof.
  intros Hs. rewrite req_feed_eq. unfold req_step. cbn [q_idx q_stage req_ctx_new].
  replace (_ <? 0)%N with false by (rewrite lenN_cons; lia).
  unfold req_stage_init. cbn [q_idx q_positions].
  replace (N.shiftr (b2n (n2b (command_id_to_u8 c))) 7 =? 1)%N with false
    by (destruct c; vm_compute; done).
  replace (command_id_of_u8 (b2n (n2b (command_id_to_u8 c)))) with (Some c)
    by (destruct c; vm_compute; done).
  by rewrite Hs.
Qed.

Lemma no_positions_no_args r :
  r_positions r = [] -> carries r [] .
Proof. intros H. destruct r; cbn in H; subst. apply req_args_nil. Qed.

Lemma c06_false e c kt l b :
  is_simple c = false -> (lenN l <= 255)%N ->
  Forall (fun a => a <> [] /\ lenN a < u32_mod)%N l ->
  builder_chain e (builder_new_kt c kt) (map CallBytes l) = Ok (b, None) ->
  match snd (req_feed req_ctx_new (r_buf (into_request b))) with
  | FRequest r => kt = None /\ l <> [] /\ r_command r = c /\ r_key_type r = None
                  /\ carries r []
  | FError err => is_Some kt /\ err = PEKeyTypeInvalid
  | FNeedMore => kt = None /\ l = []
  | FPanic | FFuel => False
  end.
Proof.
  intros Hs Hlen Hl Hb. rewrite (c02_format _ _ _ _ _ Hs Hlen Hl Hb).
  apply Forall_and in Hl as [_ Hl].
  destruct kt as [t|].
  - unfold wire_request, wire_head. cbn [app].
    rewrite parse_typed. cbn. eauto.
  - destruct l as [|a l].
    + by rewrite parse_no_args.
    + pose proof (parse_untyped c (a :: l) [] Hs) as H. rewrite app_nil_r in H.
      rewrite H by done. cbn. repeat split; try done. apply no_positions_no_args. done.
Qed.

Lemma c06_command e c l b s :
  is_simple c = false -> l <> [] -> (lenN l <= 255)%N ->
  Forall (fun a => a <> [] /\ lenN a < u32_mod)%N l ->
  builder_chain e (builder_new c) (map CallBytes l) = Ok (b, None) ->
  exists r, req_feed req_ctx_new (r_buf (into_request b) ++ s) = (req_ctx_new, FRequest r)
            /\ r_command r = c /\ r_key_type r = None.
Proof.
  intros Hs Hne Hlen Hl Hb.
  assert (builder_new c = builder_new_kt c None) as E.
  { by rewrite builder_new_built, builder_new_kt_built. }
  rewrite E in Hb. rewrite (c02_format _ _ _ _ _ Hs Hlen Hl Hb).
  apply Forall_and in Hl as [_ Hl].
  eexists. split; [by apply parse_untyped|]. done.
Qed.

(** ** C07 *)

Lemma args_none r lo hi : carries r [] -> args r lo hi = None.
Proof. intros H. by apply args_nil. Qed.

Lemma c07_no_arguments bufs :
  Forall (fun res => match res with
    | FRequest r =>
      arg_count r = 0%N /\ (forall i, arg r i = None) /\
      (forall lo hi, args r lo hi = None) /\ key r = None /\ r_key_type r = None
    | _ => True end) (snd (req_feeds req_ctx_new bufs)).
Proof.
  destruct (feeds_inv req_ctx_new bufs) as [_ H]; [done|].
  eapply Forall_impl; [exact H|]. intros [|r| | |]; cbn; try done.
  intros [H1 H2]. pose proof (no_positions_no_args r H2) as Hc.
  split; [apply Hc|]. split; [intros i; destruct Hc as [_ Hc]; apply Hc|].
  split; [intros lo hi; by apply args_none|]. split; [|done].
  unfold key. destruct Hc as [_ Hc]. destruct (key_notation_of _); (apply Hc || done).
Qed.

Lemma init_high byte rest :
  (128 <= b2n byte)%N ->
  req_feed req_ctx_new (byte :: rest) = (req_ctx_new, FError PEKeyTypeInvalid).
Proof.
  intros H. rewrite req_feed_eq. unfold req_step. cbn [q_idx q_stage req_ctx_new].
  replace (_ <? 0)%N with false by (rewrite lenN_cons; lia).
  unfold req_stage_init.
  assert (N.shiftr (b2n byte) 7 = 1%N /\ key_type_of_u8 (N.shiftr (b2n byte) 1) = None)
    as [-> ->]; [|done].
  revert H. destruct byte; vm_compute; done.
Qed.

(** After anything but an inconclusive answer the parser is as new. *)
Lemma feed_restarts x buf :
  req_reachable x ->
  match req_feed x buf with
  | (x', FRequest _) | (x', FError _) => x' = req_ctx_new
  | _ => True
  end.
Proof.
  intros Hr%reachable_inv. revert x Hr. apply (req_feed_ind (fun x => req_inv x ->
    match req_feed x buf with
    | (x', FRequest _) | (x', FError _) => x' = req_ctx_new
    | _ => True end) buf).
  - intros x x' E IH Hx. rewrite req_feed_eq, E. apply IH.
    pose proof (step_inv x buf Hx) as H. by rewrite E in H.
  - intros x x' r E Hx. rewrite req_feed_eq, E. revert E. unfold req_step.
    destruct (lenN buf <? q_idx x)%N; [by intros [= <- <-]|].
    destruct (q_stage x) as [|c kt|n c kt] eqn:Es.
    + unfold req_inv in Hx. rewrite Es in Hx. subst x.
      destruct (req_stage_init req_ctx_new buf) as [err|[x1 [c kt| |]]];
        try done; by intros [= <- <-].
    + destruct (req_stage_kind x buf kt c) as [x1 [c' kt'| |]];
        try done; by intros [= <- <-].
    + destruct (req_stage_args x buf c kt n) as [[x1 [c' kt'| |]]|];
        try done; by intros [= <- <-].
Qed.

(** ** C08 *)

Lemma first_answer_resume x bufs b r b0 :
  growing (b0 :: bufs) ->
  (req_feed req_ctx_new b0 = (x, FNeedMore)) ->
  first_answer x bufs = Some (b, r) -> r = snd (req_feed req_ctx_new b).
Proof.
  revert x b0. induction bufs as [|b1 bufs IH]; intros x b0 Hg Hx; [done|].
  cbn. inversion Hg as [| |b0' s r' Hg' E1]; subst.
  rewrite (feed_grow_more _ _ s _ Hx).
  destruct (req_feed req_ctx_new (b0 ++ s)) as [x1 res] eqn:E.
  destruct res as [| r0 | err | |]; try (intros [= <- <-]; by rewrite E).
  intros H. eapply IH; [exact Hg'|exact E|exact H].
Qed.

Lemma c08_chunks bufs b r :
  growing bufs -> first_answer req_ctx_new bufs = Some (b, r) ->
  r = snd (req_feed req_ctx_new b).
Proof.
  destruct bufs as [|b0 bufs]; [done|]. intros Hg. cbn.
  destruct (req_feed req_ctx_new b0) as [x1 res] eqn:E.
  destruct res as [| r0 | err | |]; try (intros [= <- <-]; by rewrite E).
  by eapply first_answer_resume.
Qed.

Lemma first_answer_not_more x bufs b r :
  first_answer x bufs = Some (b, r) -> r <> FNeedMore /\ b ∈ bufs.
Proof.
  revert x. induction bufs as [|b0 bufs IH]; intros x; cbn; [done|].
  destruct (req_feed x b0) as [x1 []];
    try (intros [= <- <-]; split; [done|by apply elem_of_list_here]).
  intros H. apply IH in H as [H1 H2]. split; [done|by apply elem_of_list_further].
Qed.

Lemma same_answer_rebuf r buf : answer_ok r -> r <> FFuel -> same_answer r (rebuf buf r).
Proof.
  destruct r as [|r| | |]; cbn; try done. intros [H1 H2] _.
  repeat split; try done. intros i.
  destruct (no_positions_no_args r H2) as [_ ->].
  by destruct (no_positions_no_args (Request buf (r_command r) (r_key_type r)
    (r_positions r)) H2) as [_ ->].
Qed.

Lemma c08_whole bufs b r s :
  growing bufs -> first_answer req_ctx_new bufs = Some (b, r) ->
  same_answer r (snd (req_feed req_ctx_new (b ++ s))).
Proof.
  intros Hg H. pose proof (first_answer_not_more _ _ _ _ H) as [Hn _].
  pose proof (c08_chunks _ _ _ Hg H) as Hr.
  destruct (feed_inv req_ctx_new b) as [_ Hok]; [done|].
  pose proof (req_feed_no_fuel req_ctx_new b) as Hf.
  rewrite <-Hr in Hok, Hf.
  destruct (req_feed req_ctx_new b) as [x1 r'] eqn:E. cbn in Hr. subst r'.
  rewrite (feed_grow_done _ _ s _ _ E Hn). cbn. by apply same_answer_rebuf.
Qed.

Lemma growing_prefix bufs b l :
  growing (b :: bufs) -> last (b :: bufs) = Some l -> exists s, l = b ++ s.
Proof.
  revert b. induction bufs as [|b1 bufs IH]; intros b Hg.
  - intros [= <-]. exists []. by rewrite app_nil_r.
  - inversion Hg as [| |? s ? Hg']; subst. rewrite last_cons_cons. intros Hl.
    destruct (IH _ Hg' Hl) as [s' ->]. exists (s ++ s'). by rewrite app_assoc.
Qed.

Lemma c08_none bufs b :
  growing bufs -> last bufs = Some b -> first_answer req_ctx_new bufs = None ->
  snd (req_feed req_ctx_new b) = FNeedMore.
Proof.
  intros Hg Hl Hn.
  assert (Hgen : forall bufs b0 x, growing (b0 :: bufs) ->
    req_feed req_ctx_new b0 = (x, FNeedMore) -> last (b0 :: bufs) = Some b ->
    first_answer x bufs = None -> snd (req_feed req_ctx_new b) = FNeedMore).
  { clear. induction bufs as [|b1 bufs IH]; intros b0 x Hg Hx Hl Hn.
    - injection Hl as ->. by rewrite Hx.
    - inversion Hg as [| |? s ? Hg']; subst. cbn in Hn.
      rewrite (feed_grow_more _ _ s _ Hx) in Hn.
      destruct (req_feed req_ctx_new (b0 ++ s)) as [x1 []] eqn:E; try done.
      eapply IH; [exact Hg'|exact E| |exact Hn]. by rewrite last_cons_cons in Hl. }
  destruct bufs as [|b0 bufs]; [done|]. cbn in Hn.
  destruct (req_feed req_ctx_new b0) as [x1 []] eqn:E; try done.
  by eapply Hgen.
Qed.

(** ** C09 *)

(** A pending argument count of 0 comes from a buffer with a zero count byte. *)
Definition zero_seen (bufs : list bytes) (x : req_ctx) : Prop :=
  (2 + 4 * lenN (q_positions x) <= q_idx x
   \/ exists c kt, q_stage x = QKind c kt \/ q_stage x = QInit)%N /\
  forall c kt, q_stage x = QArgs 0 c kt -> exists b, b ∈ bufs /\ b !! 1%nat = Some x00.

Lemma zero_seen_new bufs : zero_seen bufs req_ctx_new.
Proof. split; [|done]. right. exists CGet, None. by right. Qed.

Lemma zero_seen_weaken bufs bufs' x :
  (forall b, b ∈ bufs -> b ∈ bufs') -> zero_seen bufs x -> zero_seen bufs' x.
Proof.
  intros H [H1 H2]. split; [done|]. intros c kt Es.
  destruct (H2 c kt Es) as (b & Hb & Hz). eauto.
Qed.

Lemma b2n_zero n : b2n n = 0%N -> n = x00.
Proof. intros H. apply (b2n_inj n x00). by rewrite H. Qed.

Lemma step_zero bufs x buf :
  buf ∈ bufs -> req_inv x -> zero_seen bufs x ->
  match req_step x buf with
  | SNext x' => zero_seen bufs x'
  | SDone x' FPanic => (1030 <= lenN buf)%N /\
                       exists b, b ∈ bufs /\ b !! 1%nat = Some x00
  | SDone x' _ => zero_seen bufs x'
  end.
Proof.
  intros Hin Hx [Hi Hz]. unfold req_step.
  destruct (lenN buf <? q_idx x)%N eqn:E; [done|].
  destruct (q_stage x) as [|c kt|n c kt] eqn:Es.
  - destruct (req_stage_init x buf) as [err|[x1 [c kt| |]]] eqn:E1.
    + split; [by rewrite Es|]. intros c kt H. congruence.
    + apply zero_seen_new.
    + revert E1. unfold req_stage_init. destruct buf; [|].
      * intros [= <-]. split; [by rewrite Es|]. intros c kt H. congruence.
      * destruct (if (_ =? 1)%N then _ else _); [done|].
        destruct (command_id_of_u8 _); [|done]. by destruct (is_simple _).
    + apply init_next in E1 as (b & r & c & -> & _ & _ & ->).
      split; [|done]. right. cbn. eauto.
  - unfold req_stage_kind. destruct (get_at buf (q_idx x)) as [n|] eqn:E1.
    + unfold req_inv in Hx. rewrite Es in Hx. subst x. cbn in *. split; cbn.
      * left. change (lenN (@nil N)) with 0%N. lia.
      * intros c' kt' [= H1 _ _]. exists buf. split; [done|].
        rewrite get_at_lookup in E1. change (N.to_nat 1) with 1%nat in E1.
        rewrite E1. f_equal. by apply b2n_zero.
    + split; [by rewrite Es|]. intros c' kt' H. congruence.
  - unfold req_inv in Hx. rewrite Es in Hx. destruct Hx as (-> & Hn & Hl).
    assert (Hidx : (2 + 4 * lenN (q_positions x) <= q_idx x)%N).
    { destruct Hi as [Hi|(c' & kt' & [?|?])]; [done|congruence|congruence]. }
    destruct (req_stage_args x buf c None n) as [[x1 [c' kt'| |]]|] eqn:E1.
    + apply zero_seen_new.
    + assert (x1 = x) as ->; [|by split; [left|rewrite Es]].
      revert E1. unfold req_stage_args.
      destruct (get_range buf _ _); [|by intros [= <-]].
      destruct (get_range buf _ _); [|by intros [= <-]].
      destruct (lenN (q_positions x) <? positions_cap)%N; [|done].
      by destruct (_ =? n)%N.
    + apply args_next in E1 as (lb & H1 & H2 & H3 & H4 & ->).
      split; cbn [q_idx q_positions q_stage].
      * left. rewrite lenN_app, lenN_one. lia.
      * rewrite Es. done.
    + revert E1. unfold req_stage_args.
      destruct (get_range buf _ (q_idx x + 4)) as [lb|] eqn:E2; [|done].
      destruct (get_range buf _ (q_idx x + be_dec lb)); [|done].
      destruct (lenN (q_positions x) <? positions_cap)%N eqn:E3; [by destruct (_ =? n)%N|].
      unfold positions_cap in E3. intros _.
      apply get_range_some in E2 as (_ & E2 & _).
      split; [lia|]. assert (n = 0%N) as -> by lia. by apply (Hz c None).
Qed.

Lemma feed_zero bufs buf x :
  buf ∈ bufs -> req_inv x -> zero_seen bufs x ->
  match req_feed x buf with
  | (_, FPanic) => (1030 <= lenN buf)%N /\ exists b, b ∈ bufs /\ b !! 1%nat = Some x00
  | (x', _) => zero_seen bufs x'
  end.
Proof.
  intros Hin. revert x. apply (req_feed_ind (fun x => req_inv x -> zero_seen bufs x ->
    match req_feed x buf with
    | (_, FPanic) => (1030 <= lenN buf)%N /\ exists b, b ∈ bufs /\ b !! 1%nat = Some x00
    | (x', _) => zero_seen bufs x' end) buf).
  - intros x x' E IH Hx Hz. rewrite req_feed_eq, E.
    pose proof (step_inv x buf Hx) as H1. pose proof (step_zero bufs x buf Hin Hx Hz) as H2.
    rewrite E in H1, H2. by apply IH.
  - intros x x' r E Hx Hz. rewrite req_feed_eq, E.
    pose proof (step_zero bufs x buf Hin Hx Hz) as H2. rewrite E in H2. by destruct r.
Qed.

Lemma c09_panic_zero_count bufs :
  In FPanic (snd (req_feeds req_ctx_new bufs)) ->
  exists b b', b ∈ bufs /\ b' ∈ bufs /\ b !! 1%nat = Some x00 /\ (1030 <= lenN b')%N.
Proof.
  assert (Hgen : forall todo x, (forall b, b ∈ todo -> b ∈ bufs) ->
    req_inv x -> zero_seen bufs x -> In FPanic (snd (req_feeds x todo)) ->
    exists b b', b ∈ bufs /\ b' ∈ bufs /\ b !! 1%nat = Some x00 /\ (1030 <= lenN b')%N).
  { induction todo as [|b todo IH]; intros x Hsub Hx Hz; [done|].
    cbn [req_feeds]. assert (Hb : b ∈ bufs) by (apply Hsub, elem_of_list_here).
    pose proof (feed_zero bufs b x Hb Hx Hz) as H.
    pose proof (feed_inv x b Hx) as [H1 _].
    destruct (req_feed x b) as [x1 r] eqn:E. cbn in H1.
    destruct (req_feeds x1 todo) as [x2 l] eqn:E2. cbn. intros [->|Hin].
    - destruct H as [Hl (b1 & Hb1 & Hz1)]. exists b1, b. done.
    - destruct r; try (apply (IH x1);
        [intros b' Hb'; by apply Hsub, elem_of_list_further|done|done|by rewrite E2]).
      destruct H as [Hl (b1 & Hb1 & Hz1)]. exists b1, b. done. }
  apply Hgen; [done|done|apply zero_seen_new].
Qed.

Definition panic_input : bytes :=
  [n2b (command_id_to_u8 CEcho); x00] ++ concat (replicate 257 [x00; x00; x00; x00]).

Lemma c09_false : snd (req_feed req_ctx_new panic_input) = FPanic.
Proof. vm_compute. reflexivity. Qed.

(** ** What every input is read as *)

Lemma holds_S n rest :
  holds (S n) rest ->
  exists h t, rest = h ++ t /\ lenN h = 4%N /\
    ((n = 0%nat /\ (be_dec h <= 4 + lenN t)%N) \/
     exists a rest', t = a ++ rest' /\ lenN a = be_dec h /\ holds n rest').
Proof.
  inversion 1; subst.
  - eexists _, _. split; [reflexivity|]. split; [done|]. by left.
  - eexists _, _. split; [reflexivity|]. split; [done|]. right. eauto.
Qed.

Lemma get_range_short l a b : (lenN l < b)%N -> get_range l a b = None.
Proof.
  intros. unfold get_range. destruct (N.leb_spec a b); [|done].
  by destruct (N.leb_spec b (lenN l)); [lia|].
Qed.

Lemma app_split_len {A} (a b c d : list A) :
  a ++ b = c ++ d -> lenN a = lenN c -> a = c /\ b = d.
Proof. intros H Hl. apply app_inj_1; [unfold lenN in Hl; lia|done]. Qed.

Lemma read_args n c k pre rest pos :
  (n <= 255)%N -> (lenN pos + N.of_nat (S k) = if (n =? 0)%N then 257 else n)%N ->
  let r := (req_feed (ReqCtx (lenN pre) pos (QArgs n c None)) (pre ++ rest)).2 in
  (holds (S k) rest /\
   r = if (n =? 0)%N then FPanic else FRequest (Request (pre ++ rest) c None [])) \/
  (~ holds (S k) rest /\ r = FNeedMore).
Proof.
  intros Hn. revert pre rest pos. induction k as [|k IH]; intros pre rest pos Hpos r; subst r.
  all: rewrite req_feed_eq; unfold req_step; cbn [q_idx q_stage].
  all: replace (lenN (pre ++ rest) <? lenN pre)%N with false by (rewrite lenN_app; lia).
  all: unfold req_stage_args; cbn [q_idx q_positions q_stage].
  all: destruct (decide (lenN rest < 4)%N) as [Hlt|Hge];
    [right; split;
      [intros (h & t & -> & Hh & _)%holds_S; rewrite lenN_app in Hlt; lia
      |replace (get_range (pre ++ rest) (lenN pre) (lenN pre + 4)) with (@None bytes); [done|];
       symmetry; apply get_range_short; rewrite lenN_app; lia]|].
  all: set (h := take 4 rest); set (t := drop 4 rest).
  all: assert (Hrest : rest = h ++ t) by (symmetry; apply take_drop).
  all: assert (Hh : lenN h = 4%N) by (unfold h, lenN in *; rewrite take_length; lia).
  all: clearbody h t; subst rest; rewrite lenN_app in Hge.
  all: replace (get_range (pre ++ h ++ t) (lenN pre) (lenN pre + 4)) with (Some h)
    by (symmetry; apply get_range_app_mid; [done|lia]).
  all: destruct (decide (lenN (h ++ t) < be_dec h)%N) as [Hsh|Hlo].
  all: rewrite ?lenN_app in *.
  1,3: right; split;
    [intros (h' & t' & E & Hh' & H)%holds_S; apply app_split_len in E as [<- <-]; [|lia];
     destruct H as [[_ ?]|(a & r' & -> & Ha & _)]; rewrite ?lenN_app in *; lia
    |replace (get_range _ _ _) with (@None bytes); [done|]; symmetry; apply get_range_short;
     rewrite !lenN_app; lia].
  all: destruct (get_range_is_some (pre ++ h ++ t) (lenN pre) (lenN pre + be_dec h)) as [g ->];
    [lia|rewrite !lenN_app; lia|].
  all: unfold positions_cap.
  - left. split; [apply holds_last; [done|lia]|].
    destruct (n =? 0)%N eqn:En.
    + by replace (lenN pos <? 256)%N with false by lia.
    + replace (lenN pos <? 256)%N with true by lia. rewrite ?lenN_app, ?lenN_one.
      by replace (lenN pos + 1 =? n)%N with true by lia.
  - replace (lenN pos <? 256)%N with true by (destruct (n =? 0)%N; lia).
    rewrite ?lenN_app, ?lenN_one.
    replace (lenN pos + 1 =? n)%N with false by (destruct (n =? 0)%N eqn:?; lia).
    destruct (decide (lenN t < be_dec h)%N) as [Hlt|Hwhole].
    + right. split.
      * intros (h' & t' & E & Hh' & H)%holds_S. apply app_split_len in E as [<- <-]; [|lia].
        destruct H as [[? _]|(a & r' & -> & Ha & _)]; [done|]. rewrite lenN_app in Hlt. lia.
      * rewrite req_feed_eq. unfold req_step. cbn [q_idx].
        by replace (_ <? _)%N with true by (rewrite !lenN_app; lia).
    + set (a := take (N.to_nat (be_dec h)) t). set (r' := drop (N.to_nat (be_dec h)) t).
      assert (Ht : t = a ++ r') by (symmetry; apply take_drop).
      assert (Ha : lenN a = be_dec h) by (unfold a, lenN in *; rewrite take_length; lia).
      clearbody a r'. subst t.
      specialize (IH (pre ++ h ++ a) r' (pos ++ [(lenN pre + be_dec h)%N])).
      replace (lenN (pre ++ h ++ a)) with (lenN pre + (4 + be_dec h))%N in IH
        by (rewrite !lenN_app; lia).
      rewrite <-!app_assoc in IH.
      destruct IH as [[Hr ->]|[Hr ->]]; [rewrite lenN_app, lenN_one; lia|left|right];
        (split; [|done]).
      * by apply holds_more.
      * intros (h' & t' & E & Hh' & H)%holds_S. apply app_split_len in E as [<- <-]; [|lia].
        destruct H as [[? _]|(a' & r'' & E & Ha' & H)]; [done|].
        apply app_split_len in E as [<- <-]; [done|lia].
Qed.

Lemma c09_read_as buf : read_as buf (req_feed req_ctx_new buf).2.
Proof.
  destruct buf as [|b rest]; [done|]. unfold read_as.
  destruct (128 <=? b2n b)%N eqn:Eb; [by rewrite init_high by lia|].
  assert (Hs : (N.shiftr (b2n b) 7 =? 1)%N = false).
  { revert Eb. destruct b; vm_compute; done. }
  assert (Hi : req_stage_init req_ctx_new (b :: rest) =
    match command_id_of_u8 (b2n b) with
    | None => inl PECommandIdInvalid
    | Some c => if is_simple c then inr (req_ctx_new, QFinished c None)
                else inr (ReqCtx 1 [] (QKind c None), QNext)
    end).
  { unfold req_stage_init. rewrite Hs. by destruct (command_id_of_u8 _). }
  rewrite req_feed_eq. unfold req_step. cbn [q_idx q_stage req_ctx_new].
  replace (_ <? 0)%N with false by lia. fold req_ctx_new. rewrite Hi.
  destruct (command_id_of_u8 (b2n b)) as [c|]; [|done].
  destruct (is_simple c); [done|].
  rewrite req_feed_eq. unfold req_step. cbn [q_idx q_stage].
  replace (lenN (b :: rest) <? 1)%N with false by (rewrite lenN_cons; lia).
  unfold req_stage_kind. cbn [q_idx q_positions]. rewrite get_at_lookup.
  destruct rest as [|n args]; [done|]. cbn [N.to_nat lookup list_lookup].
  change ((b :: n :: args) !! N.to_nat 1) with (Some n). cbn [fst snd].
  pose proof (b2n_lt n) as Hlt.
  assert (Hz : (b2n n =? 0)%N = bool_decide (n = x00)).
  { clear. destruct n; vm_compute; reflexivity. }
  destruct (decide (n = x00)) as [->|Hn].
  - pose proof (read_args 0 c 256 [b; x00] args []) as Hg. cbn [app] in Hg. apply Hg; done.
  - assert (b2n n <> 0)%N.
    { intros H. rewrite H in Hz. symmetry in Hz. by apply bool_decide_eq_true in Hz. }
    destruct (N.to_nat (b2n n)) as [|k] eqn:Ek; [lia|].
    pose proof (read_args (b2n n) c k [b; n] args []) as Hg. cbn [app] in Hg.
    replace (b2n n =? 0)%N with false in Hg by lia. apply Hg; unfold u8_mod in *; rewrite ?lenN_nil; lia.
Qed.

Lemma c09_panics_iff buf :
  (req_feed req_ctx_new buf).2 = FPanic <-> overfull buf.
Proof.
  pose proof (c09_read_as buf) as H. split.
  - intros E. rewrite E in H. destruct buf as [|b rest]; [done|]. cbn [read_as] in H.
    destruct (128 <=? b2n b)%N; [done|]. destruct (command_id_of_u8 (b2n b)) as [c|] eqn:Ec; [|done].
    destruct (is_simple c) eqn:Es; [done|]. destruct rest as [|n args]; [done|].
    destruct H as [[Hh H]|[_ H]]; [|done]. destruct (decide (n = x00)) as [->|]; [|done].
    exists b, c, args. done.
  - intros (b & c & args & -> & Ec & Es & Hh). unfold read_as in H.
    assert (Hb : (128 <=? b2n b)%N = false).
    { revert Ec. destruct b; vm_compute; done. }
    rewrite Hb, Ec, Es in H. cbn in H. by destruct H as [[_ H]|[H _]].
Qed.
