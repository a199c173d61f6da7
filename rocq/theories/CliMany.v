(** Lines with more than 255 arguments (C58, C68). *)
From Coq Require Import String.
From Verif Require Import Bytes BytesFacts Utf8 Value CommandId Request Prog Commands EngineSpec
  WireSpec RequestSpec HistorySpec RequestFacts RequestProps Client ClientSpec ClientFacts
  Cli CliSpec CliProps.
From stdpp Require Import gmap list.
From Coq Require Import NArith ZArith Lia.
From Coq Require Import ZifyBool ZifyNat ZifyN.
From Coq.Init Require Import Byte.

Lemma line_build_256 e c kt args :
  Forall (fun a => a <> []) args -> lenN args = 256%N ->
  line_build e (built c kt []) args = if debug e then LPanic else LOk (built c kt args).
Proof.
  intros Hne Hlen.
  assert (Hg : forall rest l, Forall (fun a => a <> []) rest -> (lenN l + lenN rest = 256)%N ->
    (lenN l <= 255)%N ->
    line_build e (built c kt l) rest = if debug e then LPanic else LOk (built c kt (l ++ rest))).
  { induction rest as [|a rest IH]; intros l Hr Hl Hl'.
    { rewrite lenN_nil in Hl. lia. }
    apply Forall_cons in Hr as [Ha Hr]. rewrite lenN_cons in Hl. cbn [line_build].
    rewrite builder_bytes_cons by done.
    destruct (decide (lenN l < 255)%N) as [H1|H1].
    - rewrite push_built by done. cbn [outmap]. rewrite IH; [|done|rewrite lenN_app, lenN_one; lia..].
      by rewrite <- app_assoc.
    - assert (rest = []) as ->. { apply lenN_0. lia. }
      rewrite push_built_255 by lia. by destruct (debug e). }
  apply Hg; [done|rewrite lenN_nil; lia..].
Qed.

Lemma c68_many e x s name c t words args :
  spelled name c t -> Forall word words -> words_mean x c t words args ->
  Forall (fun a => a <> []) args -> c <> CStats ->
  (lenN args = 256%N -> debug e = true -> process e x s (line_of name words) = (s, LPanic)) /\
  (lenN args = 256%N -> debug e = false -> c = CExists \/ c = CIs ->
   process e x s (line_of name words)
   = (s, LOk (lit "You may only provide at most 255 arguments."%string))) /\
  (lenN args = 256%N -> debug e = false -> forall call, cli_call c t args = Some call ->
   process e x s (line_of name words) = ((mem_call e s call).1, call_text e x c (mem_call e s call).2)) /\
  ((256 < lenN args)%N -> process e x s (line_of name words) = (s, LPanic)).
Proof.
  intros Hs Hw Hm Hne Hst.
  assert (Hp : lenN args = 256%N ->
    parse_line e x (line_of name words) = if debug e then LPanic else LOk (into_request (built c (Some t) args))).
  { intros Hl. rewrite (parse_line_words _ _ _ _ c t) by done.
    destruct words as [|w words]; [apply words_mean_nil in Hm as ->; rewrite lenN_nil in Hl; lia|].
    rewrite (input_args_means x c t (w :: words) args ltac:(done) Hm).
    rewrite builder_new_kt_built by by apply not_simple.
    rewrite line_build_256 by done. by destruct (debug e). }
  split_and!.
  - intros Hl Hd. unfold process. by rewrite Hp, Hd.
  - intros Hl Hd Hc. rewrite (process_parsed _ _ _ _ (into_request (built c (Some t) args)))
      by by rewrite Hp, Hd.
    pose proof (built_asks c (Some t) args) as (Hc' & Ht & Hargs).
    assert (exists a, args_all (into_request (built c (Some t) args)) = Some a /\ arguments_collect a = args)
      as (a & Ea & Eargs).
    { apply args_all_collect; [done|]. intros ->. rewrite lenN_nil in Hl. lia. }
    unfold process_inner. rewrite Hc', Ht.
    assert (Hk : checked_keys args = inl TooManyKeys).
    { unfold checked_keys. destruct args; [done|]. by replace (255 <? _)%N with true by lia. }
    destruct Hc as [-> | ->]; rewrite Ea; cbn [or_else]; rewrite Eargs; unfold keyed; by rewrite Hk.
  - intros Hl Hd call Hcall.
    rewrite (process_parsed _ _ _ _ (into_request (built c (Some t) args))) by by rewrite Hp, Hd.
    apply (call_done e x s c t args); [|done]. apply built_asks.
  - intros Hl. unfold process. by rewrite (c58_too_many e x name c t words args).
Qed.
