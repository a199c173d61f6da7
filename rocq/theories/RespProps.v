(** The lemmas behind properties C10 - C16. *)
From Coq Require Import String.
From Verif Require Import Bytes BytesFacts Utf8 Value CommandId Response RespContext
  WireSpec IdsFacts ResponseFacts RespContextFacts.
From stdpp Require Import gmap list.
From Coq Require Import NArith ZArith Lia.
From Coq Require Import ZifyBool ZifyNat ZifyN.

(** ** C10, C13: a whole frame, followed by anything *)

Lemma enc_items_lt l : Forall (fun x => lenN x <= lenN (enc_items l))%N l.
Proof.
  induction l as [|a l IH]; [constructor|]. constructor.
  - cbn. rewrite !lenN_app. lia.
  - eapply Forall_impl; [exact IH|]. cbn. intros x Hx. rewrite !lenN_app. lia.
Qed.

Lemma frame_at5 k b rest s : get_at (frame k (b :: rest) ++ s) 5 = Some b.
Proof.
  unfold frame. rewrite <-!app_assoc, (app_assoc _ [_]). apply get_at_mid.
  by rewrite lenN_app, be_enc_lenN.
Qed.

Lemma limits_fit r : within_limits r -> parts_fit r.
Proof.
  destruct r as [err|err|[x|bs|n|z|l|m|st|str]]; cbn; try done; try lia.
  - unfold payload_list. rewrite lenN_app. intros [Hc Hp]. split; [done|]. intros x Hx.
    pose proof (proj1 (Forall_forall _ _) (enc_items_lt l) x Hx) as H. cbn in H. lia.
  - unfold payload_map. rewrite lenN_app. intros (Hc & Hk & Hp). split; [done|]. intros k v Hkv.
    split; [by eapply Hk|]. apply elem_of_map_to_list, enc_pairs_lt in Hkv. lia.
  - by intros (Hc & Hk & Hp).
Qed.

Lemma decode_parts dbg e r s :
  env_ok e -> parts_fit r -> resp_wf r -> undecodable_empty dbg r = false ->
  resp_feed dbg resp_ctx_new (resp_frame e r ++ s) = (resp_ctx_new, PConcluded r).
Proof.
  intros He Hl Hwf Hemp. unfold resp_frame.
  rewrite feed_frame.
  destruct r as [err|err|v]; cbn [resp_kind].
  - rewrite resp_feed_eq. unfold resp_step. cbn [s_stage].
    unfold resp_stage_dispatch_error. rewrite assert_then_true by done. cbn [s_idx].
    cbn [resp_payload]. rewrite frame_at5.
    rewrite b2n_n2b_small by (by destruct err). by destruct err.
  - rewrite resp_feed_eq. unfold resp_step. cbn [s_stage].
    unfold resp_stage_parse_error. rewrite assert_then_true by done. cbn [s_idx].
    cbn [resp_payload]. rewrite frame_at5.
    rewrite b2n_n2b_small by (by destruct err). by destruct err.
  - destruct v as [x|bs|n|z|l|m|st|str]; cbn [resp_kind]; cbn in Hl, Hwf.
    + rewrite resp_feed_eq. unfold resp_step. cbn [s_stage].
      unfold resp_stage_boolean. rewrite assert_then_true by done. cbn [s_idx].
      cbn [resp_payload]. rewrite frame_at5.
      by destruct x.
    + cbn [resp_payload]. unfold payload_bytes.
      change 4%N with (N.of_nat 4).
      rewrite (type_init_step dbg RTBytes 4 (lenN bs) bs s (Some (SBytes (lenN bs)))); [|by left; split; [left|]|rewrite pow256_4; lia|done].
      rewrite resp_feed_eq. unfold resp_step. cbn [s_stage].
      unfold resp_stage_bytes. rewrite assert_then_true by done. cbn [s_idx].
      rewrite frame_split. rewrite get_range_app_mid by (by rewrite head_of_len).
      unfold assert_then, debug_assert. cbn in Hemp.
      destruct bs; [by rewrite Hemp|]. rewrite lenN_cons.
      replace (1 + lenN bs =? 0)%N with false by lia. by rewrite andb_false_r.
    + rewrite resp_feed_eq. unfold resp_step. cbn [s_stage].
      unfold resp_stage_float. rewrite assert_then_true by done. cbn [s_idx].
      cbn [resp_payload]. unfold frame. rewrite <-!app_assoc.
      rewrite (app_assoc _ [_]).
      rewrite get_range_app_mid; [|by rewrite lenN_app, be_enc_lenN, lenN_one|
        by rewrite lenN_app, !be_enc_lenN, lenN_one].
      by rewrite be8.
    + rewrite resp_feed_eq. unfold resp_step. cbn [s_stage].
      unfold resp_stage_integer. rewrite assert_then_true by done. cbn [s_idx].
      cbn [resp_payload]. unfold frame. rewrite <-!app_assoc.
      rewrite (app_assoc _ [_]).
      rewrite get_range_app_mid; [|by rewrite lenN_app, be_enc_lenN, lenN_one|
        by unfold i64_enc; rewrite lenN_app, !be_enc_lenN, lenN_one].
      by rewrite i64_dec_enc.
    + cbn [resp_payload]. unfold payload_list in *. destruct Hl as [Hc Hp].
      change 2%N with (N.of_nat 2).
      rewrite (type_init_step dbg RTList 2 (lenN l) (enc_items l) s (Some (SList [] (lenN l)))); [|by right; split; [left|]|by rewrite pow256_2|done].
      rewrite frame_split.
      erewrite <-head_of_len.
      rewrite feed_list; [done|rewrite head_of_len; lia|by destruct l|done|].
      by apply Forall_forall.
    + cbn [resp_payload]. unfold payload_map in *. destruct Hl as (Hc & Hk).
      change 2%N with (N.of_nat 2).
      set (l := map_iter e m) in *.
      assert (Hperm : l ≡ₚ map_to_list m) by apply He.
      assert (Hlen : lenN l = N.of_nat (size m)).
      { unfold lenN. by rewrite (Permutation_length Hperm). }
      assert (Hm : list_to_map l = m).
      { rewrite <-(list_to_map_to_list m). apply list_to_map_proper; [|done].
        rewrite Hperm. apply NoDup_fst_map_to_list. }
      rewrite (type_init_step dbg RTMap 2 (lenN l) (enc_pairs l) s
        (if (lenN l =? 0)%N then None else Some (SMap ∅ (lenN l)))); [|by right; split; [right; left|]|rewrite pow256_2; lia|done].
      destruct (N.eqb_spec (lenN l) 0) as [E|E].
      { apply lenN_0 in E. rewrite E in Hm. by rewrite <-Hm. }
      rewrite frame_split.
      erewrite <-head_of_len.
      rewrite feed_map.
      * rewrite Hm. by rewrite (right_id_L (∅ : gmap bytes bytes) (∪)).
      * rewrite head_of_len. lia.
      * intros E'. by rewrite E' in E.
      * by rewrite map_size_empty.
      * rewrite Hperm. apply NoDup_fst_map_to_list.
      * intros. apply lookup_empty.
      * intros k v Hkv. rewrite Hperm in Hkv. by apply elem_of_map_to_list, Hk in Hkv.
    + cbn [resp_payload]. unfold payload_set in *. destruct Hl as (Hc & Hk).
      change 2%N with (N.of_nat 2).
      set (l := set_iter e st) in *.
      assert (Hperm : l ≡ₚ elements st) by apply He.
      assert (Hlen : lenN l = N.of_nat (size st)).
      { unfold lenN. by rewrite (Permutation_length Hperm). }
      assert (Hm : list_to_set l = st).
      { apply set_eq. intros x. rewrite elem_of_list_to_set, Hperm. apply elem_of_elements. }
      rewrite (type_init_step dbg RTSet 2 (lenN l) (enc_set l) s (Some (SSet ∅ (lenN l)))); [|by right; split; [right; right|]|rewrite pow256_2; lia|done].
      rewrite frame_split.
      erewrite <-head_of_len.
      rewrite feed_set.
      * rewrite Hm. by rewrite (right_id_L (∅ : gset bytes) (∪)).
      * rewrite head_of_len. lia.
      * intros E'. rewrite E', lenN_nil in Hlen. cbn in Hemp. lia.
      * by rewrite size_empty.
      * rewrite Hperm. apply NoDup_elements.
      * intros. apply not_elem_of_empty.
      * intros x Hx. rewrite Hperm in Hx. apply Hk. by apply elem_of_elements.
    + cbn [resp_payload]. unfold payload_bytes.
      change 4%N with (N.of_nat 4).
      rewrite (type_init_step dbg RTString 4 (lenN str) str s
        (if (lenN str =? 0)%N then None else Some (SString (lenN str)))); [|by left; split; [right|]|rewrite pow256_4; lia|done].
      destruct (N.eqb_spec (lenN str) 0) as [E|E].
      { by apply lenN_0 in E as ->. }
      rewrite resp_feed_eq. unfold resp_step. cbn [s_stage].
      unfold resp_stage_string. rewrite !assert_then_true by (cbn; lia). cbn [s_idx].
      rewrite frame_split. rewrite get_range_app_mid by (by rewrite head_of_len).
      unfold from_utf8. by rewrite Hwf.
Qed.

Lemma decode_frame dbg e r s :
  env_ok e -> within_limits r -> resp_wf r -> undecodable_empty dbg r = false ->
  resp_feed dbg resp_ctx_new (resp_frame e r ++ s) = (resp_ctx_new, PConcluded r).
Proof. intros He Hl%limits_fit. by apply decode_parts. Qed.

Lemma c10_round_trip e dbg' r to :
  env_ok e -> within_limits r -> resp_wf r -> undecodable_empty dbg' r = false ->
  exists msg, copy_to e r to = Ok (to ++ msg) /\
    snd (resp_feed dbg' resp_ctx_new msg) = PConcluded r.
Proof.
  intros He Hl Hwf Hem. exists (resp_frame e r). split; [by apply copy_to_ok|].
  rewrite <-(app_nil_r (resp_frame e r)). by rewrite decode_frame.
Qed.

Lemma c13_trailing e r msg s :
  env_ok e -> within_limits r -> resp_wf r -> undecodable_empty (debug e) r = false ->
  copy_to e r [] = Ok msg ->
  resp_feed (debug e) resp_ctx_new (msg ++ s) = (resp_ctx_new, PConcluded r).
Proof.
  intros He Hl Hwf Hem. rewrite copy_to_ok by done. intros [= <-].
  by apply decode_frame.
Qed.

(** Several messages, one parser: cut off what was concluded and feed the rest. *)
Lemma c13_stream e rs out :
  env_ok e -> Forall (fun r => within_limits r /\ resp_wf r /\
                              undecodable_empty (debug e) r = false) rs ->
  write_all e rs [] = Ok out ->
  exists msgs, cut_frames (S (length rs)) out = Some msgs /\
    resp_feeds (debug e) resp_ctx_new msgs = (resp_ctx_new, map PConcluded rs).
Proof.
  intros He H.
  assert (Hl : Forall within_limits rs) by (eapply Forall_impl; [exact H|]; by intros ? (?&?&?)).
  rewrite write_all_ok by done. intros [= <-]. cbn [app].
  exists (map (resp_frame e) rs). split; [by apply cut_frames_ok|].
  clear Hl. induction H as [|r rs (H1 & H2 & H3) _ IH]; [done|].
  cbn [map resp_feeds]. rewrite <-(app_nil_r (resp_frame e r)), decode_frame by done.
  by rewrite IH.
Qed.

Lemma c11_stream e rs to :
  env_ok e -> Forall within_limits rs ->
  exists out frames, write_all e rs to = Ok (to ++ out) /\
    cut_frames (S (length rs)) out = Some frames /\
    Forall2 (fun r f => copy_to e r [] = Ok f) rs frames.
Proof.
  intros He H. eexists _, _. split; [by apply write_all_ok|].
  split; [by apply cut_frames_ok|].
  induction H as [|r rs Hr _ IH]; constructor; [|done]. by apply copy_to_ok.
Qed.

(** ** C12 *)

Lemma strict_prefix_ask e dbg r p q :
  env_ok e -> within_limits r -> resp_frame e r = p ++ q -> q <> [] ->
  exists n, resp_feed dbg resp_ctx_new p = (resp_ctx_new, PReadBytes n) /\
    (1 <= n <= lenN q)%N /\ ((4 <= lenN p)%N -> n = lenN q).
Proof.
  intros He Hl Hf Hq. pose proof (resp_payload_limit e r He Hl) as Hlim.
  pose proof (lenN_pos q Hq) as Hq'.
  assert (Hlen : (lenN p + lenN q = 4 + (1 + lenN (resp_payload e r)))%N).
  { rewrite <-lenN_app, <-Hf. unfold resp_frame, frame.
    rewrite !lenN_app, be_enc_lenN, lenN_one. done. }
  eexists. split.
  - apply (feed_incomplete dbg p (1 + lenN (resp_payload e r))).
    destruct (N.ltb_spec (lenN p) 4) as [H4|H4]; [by left|right].
    exists (take 4 p), (drop 4 p). rewrite take_drop.
    assert (Hh : take 4 p = be_enc 4 (1 + lenN (resp_payload e r))).
    { transitivity (take 4 (p ++ q)).
      - rewrite take_app_le; [done|]. unfold lenN in H4. lia.
      - rewrite <-Hf. unfold resp_frame, frame. rewrite take_app_alt; [done|].
        by rewrite be_enc_len. }
    rewrite Hh, be_enc_lenN, be4 by done. split; [done|]. split; [done|].
    split; [done|]. lia.
  - destruct (N.ltb_spec (lenN p) 4); split; lia.
Qed.

Lemma c12_prefixes e r msg ps :
  env_ok e -> within_limits r -> resp_wf r -> undecodable_empty (debug e) r = false ->
  copy_to e r [] = Ok msg ->
  Forall (fun p => exists q, q <> [] /\ msg = p ++ q) ps ->
  exists answers,
    resp_feeds (debug e) resp_ctx_new (ps ++ [msg])
      = (resp_ctx_new, answers ++ [PConcluded r]) /\
    Forall2 (fun p a => exists n, a = PReadBytes n /\
      (1 <= n <= lenN msg - lenN p)%N /\
      ((4 <= lenN p)%N -> n = (lenN msg - lenN p)%N)) ps answers.
Proof.
  intros He Hl Hwf Hem Hc. rewrite copy_to_ok in Hc by done. injection Hc as <-.
  induction 1 as [|p ps (q & Hq & Hp) _ (answers & IH & IH2)].
  - exists []. split; [|constructor]. cbn [app resp_feeds].
    rewrite <-(app_nil_r (resp_frame e r)). by rewrite decode_frame.
  - destruct (strict_prefix_ask e (debug e) r p q) as (n & Hn & Hb & He'); [done..|].
    exists (PReadBytes n :: answers). cbn [app resp_feeds]. rewrite Hn, IH.
    split; [done|]. constructor; [|done]. exists n. split; [done|].
    cbn [app] in *. rewrite Hp, lenN_app. split; [lia|]. intros H4. rewrite He' by done. lia.
Qed.

(** ** C14 *)

Lemma feed_type_init2 dbg s :
  resp_feed dbg resp_ctx_new (frame RTList (be_enc 2 0) ++ s) =
  resp_feed dbg (RespCtx 7 (SList [] 0)) (frame RTList (be_enc 2 0) ++ s).
Proof.
  rewrite feed_frame by done. rewrite <-(app_nil_r (be_enc 2 0)).
  change 2%N with (N.of_nat 2).
  rewrite (type_init_step dbg RTList 2 0 [] s (Some (SList [] 0))); [done| |done|done].
  right; split; [by left|done].
Qed.

Lemma set_iter_empty e : env_ok e -> set_iter e ∅ = [].
Proof.
  intros [_ H]. specialize (H ∅). rewrite elements_empty in H.
  by apply Permutation_nil_r in H.
Qed.

Lemma map_iter_empty e : env_ok e -> map_iter e ∅ = [].
Proof.
  intros [H _]. specialize (H ∅). rewrite map_to_list_empty in H.
  by apply Permutation_nil_r in H.
Qed.

Lemma empty_frames e :
  env_ok e ->
  copy_to e (RValue (VList [])) [] = Ok (frame RTList (be_enc 2 0)) /\
  copy_to e (RValue (VSet ∅)) [] = Ok (frame RTSet (be_enc 2 0)) /\
  copy_to e (RValue (VBytes [])) [] = Ok (frame RTBytes (be_enc 4 0)).
Proof.
  intros He. split; [|split].
  - rewrite copy_to_ok by done. done.
  - rewrite copy_to_ok; [|done|].
    + unfold resp_frame. cbn. rewrite set_iter_empty by done. done.
    + cbn. rewrite size_empty, elements_empty. split; [done|]. split; [|done].
      intros x Hx. by apply not_elem_of_empty in Hx.
  - rewrite copy_to_ok by done. done.
Qed.

(** A complete message with an empty list or set is never concluded: the parser
    asks for four (list) or two (set) bytes that belong to the next message. *)
Lemma c14_false e :
  env_ok e ->
  (exists msg, copy_to e (RValue (VList [])) [] = Ok msg /\
     snd (resp_feed (debug e) resp_ctx_new msg) = PReadBytes 4) /\
  (exists msg, copy_to e (RValue (VSet ∅)) [] = Ok msg /\
     snd (resp_feed (debug e) resp_ctx_new msg) = PReadBytes 2) /\
  (exists msg, copy_to e (RValue (VBytes [])) [] = Ok msg /\
     snd (resp_feed true resp_ctx_new msg) = PPanic).
Proof.
  intros He. destruct (empty_frames e He) as (H1 & H2 & H3).
  split; [|split]; eexists; (split; [eassumption|]).
  - by destruct (debug e).
  - by destruct (debug e).
  - done.
Qed.

(** Followed by another message, an empty list is decoded to a list that holds the
    start of that message. *)
Lemma c14_misparse dbg item s :
  (lenN item < u32_mod)%N ->
  snd (resp_feed dbg resp_ctx_new
         (frame RTList (be_enc 2 0) ++ be_enc 4 (lenN item) ++ item ++ s))
  = PConcluded (RValue (VList [item])).
Proof.
  intros Hi. rewrite feed_type_init2.
  rewrite resp_feed_eq. unfold resp_step. cbn [s_stage].
  unfold resp_stage_list. cbn [s_idx]. rewrite assert_then_true by done.
  rewrite assert_then_true by (rewrite lenN_app;
    change (lenN (frame RTList (be_enc 2 0))) with 7%N; lia).
  cbn zeta. rewrite get_range_app_mid by (by rewrite ?be_enc_lenN).
  rewrite be4 by done. rewrite app_assoc.
  rewrite get_range_app_mid; [done| |]; rewrite lenN_app;
    change (lenN (frame RTList (be_enc 2 0))) with 7%N; by rewrite be_enc_lenN.
Qed.

Lemma c14_misparse_msg e dbg item s :
  env_ok e -> (lenN item < u32_mod)%N ->
  exists msg, copy_to e (RValue (VList [])) [] = Ok msg /\
    snd (resp_feed dbg resp_ctx_new (msg ++ be_enc 4 (lenN item) ++ item ++ s))
    = PConcluded (RValue (VList [item])).
Proof.
  intros He Hi. eexists. split; [by apply empty_frames|]. by apply c14_misparse.
Qed.

Lemma c14_decodes e s :
  env_ok e ->
  (exists msg, copy_to e (RValue (VMap ∅)) [] = Ok msg /\
     forall dbg', resp_feed dbg' resp_ctx_new (msg ++ s) = (resp_ctx_new, PConcluded (RValue (VMap ∅)))) /\
  (exists msg, copy_to e (RValue (VString [])) [] = Ok msg /\
     forall dbg', resp_feed dbg' resp_ctx_new (msg ++ s) = (resp_ctx_new, PConcluded (RValue (VString [])))) /\
  (exists msg, copy_to e (RValue (VBytes [])) [] = Ok msg /\
     resp_feed false resp_ctx_new (msg ++ s) = (resp_ctx_new, PConcluded (RValue (VBytes [])))).
Proof.
  intros He. split; [|split].
  - assert (Hl : within_limits (RValue (VMap ∅))).
    { cbn. rewrite map_size_empty, map_to_list_empty. split; [done|]. split; [|done].
      intros k v. by rewrite lookup_empty. }
    eexists. split; [by apply copy_to_ok|]. intros dbg'. by apply decode_frame.
  - eexists. split; [by apply copy_to_ok|]. intros dbg'. by apply decode_frame.
  - eexists. split; [by apply copy_to_ok|]. by apply decode_frame.
Qed.

(** ** C15 *)

(** A map whose only key is 256 zero bytes is sent without complaint and decoded as
    a map with one empty key. *)
Lemma c15_false dbg :
  let m : gmap bytes bytes := {[ repeat x00 256 := lit "v" ]} in
  exists msg, copy_to (env_std dbg) (RValue (VMap m)) [] = Ok msg /\
    snd (resp_feed dbg resp_ctx_new msg) = PConcluded (RValue (VMap {[ [] := [] ]})) /\
    m <> {[ [] := [] ]}.
Proof.
  cbn zeta. eexists. split; [|split].
  - destruct dbg; vm_compute; reflexivity.
  - destruct dbg; vm_compute; reflexivity.
  - intros E. apply (f_equal (fun m : gmap bytes bytes => m !! [])) in E.
    rewrite lookup_singleton in E. by rewrite lookup_singleton_ne in E.
Qed.

Lemma uadd_debug_ok m a b c : uadd m true a b = Ok c -> (a + b < m)%N /\ c = (a + b)%N.
Proof.
  unfold uadd. destruct (N.ltb_spec (a + b) m); [|done]. by intros [= <-].
Qed.

Lemma write_list_loop_inv to n c l res :
  Forall (fun x => lenN x < u32_mod)%N l ->
  write_list_loop true to n c l = Ok res -> l <> [] ->
  (n + lenN (enc_items l) < u32_mod)%N /\ (c + lenN l < u16_mod)%N.
Proof.
  revert to n c. induction l as [|x l IH]; intros to n c Hl; [done|].
  apply Forall_cons in Hl as [Hx Hl]. intros H _. cbn in H.
  destruct (uadd u16_mod true c 1) as [c'|] eqn:E1; [|done].
  apply uadd_debug_ok in E1 as [E1 ->]. cbn in H.
  rewrite as_u32_small in H by done. unfold u32_add in H.
  destruct (uadd u32_mod true 4 (lenN x)) as [m'|] eqn:E2; [|done].
  apply uadd_debug_ok in E2 as [E2 ->]. cbn in H.
  destruct (uadd u32_mod true n _) as [n'|] eqn:E3; [|done].
  apply uadd_debug_ok in E3 as [E3 ->]. cbn in H.
  rewrite lenN_cons. cbn. rewrite !lenN_app, be_enc_lenN. change (N.of_nat 4) with 4%N.
  destruct l as [|y l].
  - cbn. change (lenN (@nil byte)) with 0%N. change (lenN (@nil bytes)) with 0%N. lia.
  - apply IH in H; [|done|done]. lia.
Qed.

Lemma map_len_loop_inv acc l res :
  (forall k v, (k, v) ∈ l -> lenN k < 256 /\ lenN v < u32_mod)%N ->
  map_len_loop true acc l = Ok res -> (acc < u32_mod)%N ->
  (acc + lenN (enc_pairs l) < u32_mod)%N.
Proof.
  revert acc. induction l as [|[k v] l IH]; intros acc Hl H Ha; cbn in *.
  - change (lenN (@nil byte)) with 0%N. lia.
  - destruct (Hl k v) as [Hk Hv]; [apply elem_of_list_here|].
    assert (Hk' : (lenN k < u32_mod)%N) by (unfold u32_mod; lia).
    rewrite !as_u32_small in H by done. unfold u32_add in H.
    destruct (uadd u32_mod true 1 (lenN k)) as [m1|] eqn:E1; [|done].
    apply uadd_debug_ok in E1 as [E1 ->]. cbn in H.
    destruct (uadd u32_mod true (1 + lenN k) 4) as [m2|] eqn:E2; [|done].
    apply uadd_debug_ok in E2 as [E2 ->]. cbn in H.
    destruct (uadd u32_mod true (1 + lenN k + 4) (lenN v)) as [m3|] eqn:E3; [|done].
    apply uadd_debug_ok in E3 as [E3 ->]. cbn in H.
    destruct (uadd u32_mod true acc _) as [m4|] eqn:E4; [|done].
    apply uadd_debug_ok in E4 as [E4 ->]. cbn in H.
    apply IH in H; [|intros ?? Hin; by apply Hl, elem_of_list_further|done].
    rewrite !lenN_app, !be_enc_lenN. lia.
Qed.

Lemma set_len_loop_inv acc l res :
  (forall x, x ∈ l -> lenN x < u16_mod)%N ->
  set_len_loop true acc l = Ok res -> (acc < u32_mod)%N ->
  (acc + lenN (enc_set l) < u32_mod)%N.
Proof.
  revert acc. induction l as [|x l IH]; intros acc Hl H Ha; cbn in *.
  - change (lenN (@nil byte)) with 0%N. lia.
  - assert (Hx : (lenN x < u16_mod)%N) by (apply Hl, elem_of_list_here).
    rewrite !as_u32_small in H by (unfold u16_mod, u32_mod in *; lia). unfold u32_add in H.
    destruct (uadd u32_mod true 2 (lenN x)) as [m1|] eqn:E1; [|done].
    apply uadd_debug_ok in E1 as [E1 ->]. cbn in H.
    destruct (uadd u32_mod true acc _) as [m4|] eqn:E4; [|done].
    apply uadd_debug_ok in E4 as [E4 ->]. cbn in H.
    apply IH in H; [|intros ? Hin; by apply Hl, elem_of_list_further|done].
    rewrite !lenN_app, !be_enc_lenN. lia.
Qed.

(** In a debug build, a list, map or set whose parts fit their fields is either
    refused (by a panic of the writer) or decoded back. *)
Lemma c15_debug e v s :
  env_ok e -> debug e = true ->
  match v with
  | VList l => l <> [] /\ Forall (fun x => lenN x < u32_mod)%N l
  | VMap m => (N.of_nat (size m) < u16_mod)%N /\
              forall k x, m !! k = Some x -> (lenN k < 256 /\ lenN x < u32_mod)%N
  | VSet s => s <> ∅ /\ (N.of_nat (size s) < u16_mod)%N /\ forall x, x ∈ s -> (lenN x < u16_mod)%N
  | _ => False
  end ->
  copy_to e (RValue v) [] = Panic \/
  exists msg, copy_to e (RValue v) [] = Ok msg /\
    resp_feed true resp_ctx_new (msg ++ s) = (resp_ctx_new, PConcluded (RValue v)).
Proof.
  intros He Hd Hv.
  destruct (copy_to e (RValue v) []) as [msg|] eqn:E; [right|by left].
  exists msg. split; [done|].
  enough (within_limits (RValue v) /\ resp_wf (RValue v) /\ undecodable_empty true (RValue v) = false)
    as (H1 & H2 & H3).
  { rewrite copy_to_ok in E by done. injection E as <-. by apply decode_frame. }
  destruct v as [x|bs|n|z|l|m|st|str]; try done.
  - destruct Hv as [Hne Hl]. cbn in E. unfold write_list in E. rewrite Hd in E.
    destruct (write_list_loop true _ 3 0 l) as [[[to' n] c]|] eqn:E'; [|done].
    apply write_list_loop_inv in E' as [E1 E2]; [|done|done].
    split; [|split; [done|by destruct l]]. cbn. unfold payload_list.
    rewrite lenN_app, be_enc_lenN. split; [lia|]. change (N.of_nat 2) with 2%N. lia.
  - destruct Hv as [Hs Hk]. cbn in E. unfold write_map in E. rewrite Hd in E.
    destruct (map_len_loop true 3 (map_iter e m)) as [n|] eqn:E'; [|done].
    apply map_len_loop_inv in E'; [|intros k v Hkv; apply Hk; rewrite (proj1 He) in Hkv;
      by apply elem_of_map_to_list in Hkv|done].
    split; [|done]. cbn. split; [done|]. split; [by intros k v [??]%Hk|].
    unfold payload_map. rewrite lenN_app, be_enc_lenN.
    rewrite <-(lenN_concat_perm _ _ _ (proj1 He m)). change (N.of_nat 2) with 2%N. lia.
  - destruct Hv as (Hne & Hs & Hk). cbn in E. unfold write_set in E. rewrite Hd in E.
    destruct (set_len_loop true 3 (set_iter e st)) as [n|] eqn:E'; [|done].
    apply set_len_loop_inv in E'; [|intros x Hx; apply Hk; rewrite (proj2 He) in Hx;
      by apply elem_of_elements in Hx|done].
    split; [|split; [done|]].
    + cbn. split; [done|]. split; [done|].
      unfold payload_set. rewrite lenN_app, be_enc_lenN.
      rewrite <-(lenN_concat_perm _ _ _ (proj2 He st)). change (N.of_nat 2) with 2%N. lia.
    + cbn. destruct (Nat.eqb_spec (size st) 0) as [E0|]; [|done].
      by apply size_empty_inv, leibniz_equiv in E0.
Qed.

(** ** C16 *)

Lemma c16_false :
  (* an unknown error code panics in both profiles *)
  (forall dbg code, dispatch_error_of_u8 (b2n code) = None ->
     snd (resp_feed dbg resp_ctx_new
       [x00; x00; x00; n2b 2; n2b (response_type_to_u8 RTDispatchError); code]) = PPanic) /\
  (* a bytes message without its length field asks for no bytes at all *)
  (forall dbg, snd (resp_feed dbg resp_ctx_new
       [x00; x00; x00; n2b 1; n2b (response_type_to_u8 RTBytes)]) = PReadBytes 0) /\
  (* a list message without its count panics in debug builds and asks for
     2^64 - 2 bytes in release builds *)
  snd (resp_feed true resp_ctx_new
       [x00; x00; x00; n2b 1; n2b (response_type_to_u8 RTList)]) = PPanic /\
  snd (resp_feed false resp_ctx_new
       [x00; x00; x00; n2b 1; n2b (response_type_to_u8 RTList)]) = PReadBytes (u64_mod - 2).
Proof.
  split; [|split; [|split]].
  - intros dbg code Hc.
    change [x00; x00; x00; n2b 2; n2b (response_type_to_u8 RTDispatchError); code]
      with (frame RTDispatchError [code]).
    rewrite <-(app_nil_r (frame _ _)). rewrite feed_frame by done.
    rewrite resp_feed_eq. unfold resp_step. cbn [s_stage].
    unfold resp_stage_dispatch_error. rewrite assert_then_true by done. cbn [s_idx].
    rewrite frame_at5.
    by rewrite Hc.
  - by intros [].
  - done.
  - done.
Qed.

(** The stages that never panic in a release build. *)
Definition calm (x : resp_ctx) : Prop :=
  match s_stage x with
  | SDispatchError | SParseError => False
  | SInit | SDetermineType => False
  | STypeInit k _ => k = RTBytes \/ k = RTList \/ k = RTMap \/ k = RTSet \/ k = RTString
  | _ => True
  end.

Lemma usize_sub_release a b : exists c, usize_sub false a b = Ok c.
Proof. unfold usize_sub, usub. destruct (_ <=? _)%N; eauto. Qed.

Lemma remaining_bytes_release a b c : exists n, remaining_bytes false a b c = Ok n.
Proof.
  cbn. eauto.
Qed.

Lemma ask_release x n : (exists k, n = Ok k) -> exists k, ask x n = Ok (x, GInstr (IReadBytes k)).
Proof. intros [k ->]. cbn. eauto. Qed.

Lemma calm_step x buf :
  calm x -> exists x' g, resp_step false x buf = Ok (x', g) /\ (g = GContinue -> calm x').
Proof.
  unfold calm at 1, resp_step.
  assert (Hask : forall y n, (exists k, n = Ok k) ->
    exists x' g, ask y n = Ok (x', g) /\ (g = GContinue -> calm x')).
  { intros y n [k ->]. cbn. do 2 eexists. split; [done|]. done. }
  assert (Hconc : forall y r,
    exists x' g, conclude y r = Ok (x', g) /\ (g = GContinue -> calm x')).
  { intros y r. do 2 eexists. split; [done|]. done. }
  destruct (s_stage x) as [| |k rl| |len| | |acc len|acc len| | |acc len|len]; try done.
  - intros Hk. unfold resp_stage_type_init. rewrite assert_then_release.
    destruct (get_range buf _ _); [|by apply Hask, usize_sub_release].
    rewrite assert_then_release. cbn zeta.
    destruct Hk as [->|[->|[->|[->| ->]]]]; try destruct (_ =? 0)%N; try apply Hconc;
      do 2 eexists; (split; [done|]); done.
  - intros _. unfold resp_stage_boolean. rewrite assert_then_release.
    destruct (get_at buf _); [apply Hconc|apply Hask; eauto].
  - intros _. unfold resp_stage_bytes. rewrite !assert_then_release.
    destruct (get_range buf _ _); [apply Hconc|by apply Hask, remaining_bytes_release].
  - intros _. unfold resp_stage_float. rewrite assert_then_release.
    destruct (get_range buf _ _); [apply Hconc|apply Hask; eauto].
  - intros _. unfold resp_stage_integer. rewrite assert_then_release.
    destruct (get_range buf _ _); [apply Hconc|apply Hask; eauto].
  - intros _. unfold resp_stage_list. rewrite !assert_then_release. cbn zeta.
    destruct (get_range buf (s_idx x) _) as [h|]; [|by apply Hask, remaining_bytes_release].
    destruct (get_range buf (s_idx x + 4) _); [|by apply Hask, usize_sub_release].
    destruct (_ <? _)%N; [|apply Hconc]. do 2 eexists. split; [done|]. done.
  - intros _. unfold resp_stage_map. rewrite !assert_then_release. cbn zeta.
    destruct (get_range buf (s_idx x) _) as [h|]; [|by apply Hask, remaining_bytes_release].
    destruct (get_range buf (s_idx x + 1) _); [|by apply Hask, remaining_bytes_release].
    destruct (get_range buf (s_idx x + 1 + be_dec h) _) as [h2|];
      [|by apply Hask, remaining_bytes_release].
    destruct (get_range buf (s_idx x + 1 + be_dec h + 4) _);
      [|by apply Hask, remaining_bytes_release].
    destruct (_ <? _)%N; [|apply Hconc]. do 2 eexists. split; [done|]. done.
  - intros _. unfold resp_stage_set. rewrite !assert_then_release. cbn zeta.
    destruct (get_range buf (s_idx x) _) as [h|]; [|by apply Hask, remaining_bytes_release].
    destruct (get_range buf (s_idx x + 2) _); [|by apply Hask, remaining_bytes_release].
    destruct (_ <? _)%N; [|apply Hconc]. do 2 eexists. split; [done|]. done.
  - intros _. unfold resp_stage_string. rewrite !assert_then_release.
    destruct (get_range buf _ _); [|by apply Hask, usize_sub_release].
    destruct (from_utf8 _); [apply Hconc|]. do 2 eexists. split; [done|]. done.
Qed.

Lemma calm_feed buf x : calm x -> snd (resp_feed false x buf) <> PPanic.
Proof.
  apply (resp_feed_ind false buf (fun x => calm x -> snd (resp_feed false x buf) <> PPanic)).
  - intros y y' Hs IH Hy. destruct (calm_step y buf Hy) as (x' & g & E & Hc).
    rewrite Hs in E. injection E as <- <-. rewrite resp_feed_eq, Hs. by apply IH, Hc.
  - intros y Hn Hy. destruct (calm_step y buf Hy) as (x' & g & E & _).
    rewrite resp_feed_eq, E. destruct g as [err|[r|n]|]; try done.
    by apply Hn in E.
Qed.

(** In a release build the only panic is an unknown code in an error message. *)
Lemma c16_release buf :
  match snd (resp_feed false resp_ctx_new buf) with
  | PPanic => exists kind code, get_at buf 4 = Some kind /\ get_at buf 5 = Some code /\
      (kind = n2b (response_type_to_u8 RTDispatchError) /\ dispatch_error_of_u8 (b2n code) = None \/
       kind = n2b (response_type_to_u8 RTParseError) /\ parse_error_of_u8 (b2n code) = None)
  | PFuel => False
  | _ => True
  end.
Proof.
  destruct (snd (resp_feed false resp_ctx_new buf)) eqn:E; try done;
    [|by apply resp_feed_no_fuel in E].
  rewrite resp_feed_eq in E. unfold resp_step at 1 in E. cbn [s_stage resp_ctx_new] in E.
  unfold resp_stage_init in E. rewrite assert_then_release in E.
  destruct (get_range buf 0 4) as [h|]; [|done]. cbn zeta in E.
  destruct (_ <? _)%N.
  { destruct (usize_sub_release (4 + be_dec h) (lenN buf)) as [n Hn]. by rewrite Hn in E. }
  change (s_idx resp_ctx_new + 4)%N with 4%N in E.
  rewrite resp_feed_eq in E. unfold resp_step at 1 in E. cbn [s_stage] in E.
  unfold resp_stage_determine in E. rewrite assert_then_release in E. cbn [s_idx] in E.
  destruct (get_at buf 4) as [kind|]; [|done].
  destruct (response_type_of_u8 (b2n kind)) as [k|] eqn:Hk; [|done].
  assert (Hkind : kind = n2b (response_type_to_u8 k)).
  { rewrite <-(n2b_b2n kind). f_equal. by apply response_type_u8. }
  change (4 + 1)%N with 5%N in E.
  destruct k; try (exfalso; eapply calm_feed; [|exact E]; cbn; tauto);
    rewrite resp_feed_eq in E; unfold resp_step in E; cbn [s_stage] in E.
  - unfold resp_stage_parse_error in E. rewrite assert_then_release in E. cbn [s_idx] in E.
    destruct (get_at buf 5) as [code|]; [|done].
    destruct (parse_error_of_u8 (b2n code)) eqn:Hc; [done|].
    exists kind, code. split; [done|]. split; [done|]. right. done.
  - unfold resp_stage_dispatch_error in E. rewrite assert_then_release in E. cbn [s_idx] in E.
    destruct (get_at buf 5) as [code|]; [|done].
    destruct (dispatch_error_of_u8 (b2n code)) eqn:Hc; [done|].
    exists kind, code. split; [done|]. split; [done|]. left. done.
Qed.

(** As long as a message is shorter than its header says, nothing but a positive
    request for bytes can happen, in both profiles. *)
Lemma c16_incomplete dbg p :
  (lenN p < 4 \/ exists h t, p = h ++ t /\ lenN h = 4 /\ lenN t < be_dec h)%N ->
  exists n, resp_feed dbg resp_ctx_new p = (resp_ctx_new, PReadBytes n) /\ (1 <= n)%N.
Proof.
  intros [H|(h & t & -> & Hh & Ht)].
  - eexists. split; [apply (feed_incomplete dbg p 0); by left|].
    destruct (_ <? _)%N eqn:E; lia.
  - eexists. split.
    + apply (feed_incomplete dbg (h ++ t) (be_dec h)). right. exists h, t.
      rewrite lenN_app. repeat split; try done. lia.
    + rewrite lenN_app. destruct (_ <? _)%N eqn:E; lia.
Qed.
