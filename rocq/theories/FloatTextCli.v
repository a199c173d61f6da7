(** Floats on the command line (C113). *)
From Coq Require Import String.
From Verif Require Import Bytes BytesFacts Utf8 Value CommandId Request Prog Commands EngineSpec WireSpec RequestSpec HistorySpec
  Client ClientSpec Cli CliSpec CliFacts CliProps FloatSpec FloatText FloatTextSpec FloatTextFacts FloatTextRead FloatTextShow.
From stdpp Require Import gmap list.
From Coq Require Import NArith ZArith Lia ZifyBool ZifyNat ZifyN.
From Coq.Init Require Import Byte.

Lemma c113_typed e name c keys ws fs :
  spelled name c KTFloat -> c <> CExists -> c <> CIs -> c <> CStats -> length keys = key_words c ->
  Forall word (keys ++ ws) -> Forall (fun k => k <> []) keys -> Forall2 float_word ws fs ->
  (lenN keys + lenN ws <= 255)%N ->
  exists req, parse_line e rust_text (line_of name (keys ++ ws)) = LOk req /\
    asks req c (Some KTFloat) (keys ++ map (be_enc 8) fs).
Proof.
  intros Hs He Hi Hst Hk Hw Hne Hfs Hlen. apply c58_reads; try done.
  - assert (H : exists ks rest rest', keys ++ ws = ks ++ rest /\ keys ++ map (be_enc 8) fs = ks ++ rest' /\
      length ks = key_words c /\ Forall2 (word_means rust_text KTFloat) rest rest' /\
      (KTFloat = KTMap -> Nat.even (length rest) = true)).
    { exists keys, ws, (map (be_enc 8) fs). split_and!; try done.
      apply Forall2_fmap_r. eapply Forall2_impl; [exact Hfs|]. intros w f Hf. exists f. split; [|done].
      by apply c113_read. }
    unfold words_mean. destruct c; try done; by right.
  - apply Forall_app. split; [done|]. apply Forall_map, Forall_true. intros f E.
    apply (f_equal length) in E. rewrite be_enc_len in E. done.
  - rewrite lenN_app. unfold lenN in *. rewrite map_length, <-(Forall2_length _ _ _ Hfs). lia.
Qed.

Lemma typed_words_bad x ws w more acc : Forall (fun w => exists f, parse_f64 x w = Some f) ws ->
  parse_f64 x w = None -> typed_words x KTFloat (ws ++ w :: more) acc = LErr (LEArgumentInvalid w KTFloat).
Proof.
  intros H Hw. revert acc. induction H as [|v ws [f Hf] H IH]; intros acc; cbn.
  - by rewrite Hw.
  - by rewrite Hf, IH.
Qed.

Lemma c113_refused e name c keys ws w more :
  spelled name c KTFloat -> c <> CExists -> c <> CIs -> length keys = key_words c ->
  Forall word (keys ++ ws ++ w :: more) ->
  Forall (fun w => exists f, float_word w f) ws -> (forall f, ~ float_word w f) ->
  parse_line e rust_text (line_of name (keys ++ ws ++ w :: more)) = LErr (LEArgumentInvalid w KTFloat).
Proof.
  intros Hs He Hi Hk Hw Hws Hbad.
  assert (Hn : parse_f64 rust_text w = None).
  { cbn. destruct (read_f64 w) as [f|] eqn:E; [|done]. apply c113_read in E. by destruct (Hbad f). }
  assert (Hok : Forall (fun w => exists f, parse_f64 rust_text w = Some f) ws).
  { eapply Forall_impl; [exact Hws|]. intros v [f Hf]. exists f. by apply c113_read. }
  pose proof (fun acc => typed_words_bad rust_text ws w more acc Hok Hn) as Ht.
  rewrite (parse_line_words _ _ _ _ c KTFloat) by done.
  assert (Hia : input_args rust_text c KTFloat (keys ++ ws ++ w :: more) = LErr (LEArgumentInvalid w KTFloat)).
  { unfold input_args. destruct c; try done; cbn in Hk |- *;
      destruct keys as [|k1 [|k2 [|k3 keys]]]; try done; cbn; apply Ht. }
  destruct (keys ++ ws ++ w :: more) as [|v l] eqn:E.
  - apply app_eq_nil in E as [_ E]. by apply app_eq_nil in E as [_ E].
  - by rewrite Hia.
Qed.

Lemma c113_printed e s name c t words args call f :
  spelled name c t -> Forall word words -> words_mean rust_text c t words args ->
  Forall (fun a => a <> []) args -> (lenN args <= 255)%N -> cli_call c t args = Some call ->
  (mem_call e s call).2 = ROk (RpValue (VFloat f)) -> (f < 2 ^ 64)%N -> ~ nan f ->
  exists out, process e rust_text s (line_of name words) = ((mem_call e s call).1, LOk out) /\
    float_word out f /\ forall g, float_word out g -> g = f.
Proof.
  intros Hs Hw Hm Hne Hlen Hc Hr Hf Hn. exists (show_float f).
  rewrite (c68_does e rust_text s name c t words args call) by done. rewrite Hr. split; [done|].
  destruct (c113_round_trip f Hf) as [[? _]|(_ & ? & ?)]; done.
Qed.
