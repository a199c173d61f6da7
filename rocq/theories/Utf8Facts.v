(** The validator accepts exactly the encodings of scalar sequences, and the character
    count is their number. *)
From Verif Require Import Bytes BytesFacts Utf8 Utf8Spec ProgFacts.
From stdpp Require Import list.
From Coq Require Import NArith Lia.
From Coq Require Import ZifyBool ZifyNat ZifyN.
Ltac Zify.zify_post_hook ::= Z.div_mod_to_equations.

Lemma in_range_n2b lo hi n :
  (n < 256)%N -> in_range lo hi (n2b n) = ((lo <=? n) && (n <=? hi))%N.
Proof. intros H. unfold in_range. by rewrite b2n_n2b_small. Qed.

(** Deciding the class of the bytes of one character. *)
Ltac range_step :=
  match goal with
  | |- context [in_range ?lo ?hi (n2b ?n)] =>
    rewrite (in_range_n2b lo hi n) by lia
  end.
Ltac bool_step :=
  match goal with
  | |- context [((?a <=? ?b) && (?c <=? ?d))%N] =>
    first [ replace ((a <=? b) && (c <=? d))%N with true by lia
          | replace ((a <=? b) && (c <=? d))%N with false by lia
          | destruct ((a <=? b) && (c <=? d))%N eqn:? ]
  end.

Lemma utf8_encode_valid c s :
  is_scalar c -> utf8_valid (utf8_encode c ++ s) = utf8_valid s.
Proof.
  intros Hc. unfold is_scalar in Hc. unfold utf8_encode.
  destruct (c <? 128)%N eqn:E1; [|destruct (c <? 2048)%N eqn:E2;
    [|destruct (c <? 65536)%N eqn:E3]]; cbn [app utf8_valid]; unfold is_cont.
  - repeat range_step. by bool_step.
  - repeat range_step. repeat bool_step; cbn [andb]; done.
  - repeat range_step. 
    repeat (bool_step; cbn [andb]); try done; exfalso; lia.
  - repeat range_step. 
    repeat (bool_step; cbn [andb]); try done; exfalso; lia.
Qed.

Lemma chars_valid cs s : spells_chars cs s -> utf8_valid s = true.
Proof.
  intros [H ->]. induction H as [|c cs Hc _ IH]; [done|]. cbn [map concat].
  by rewrite utf8_encode_valid.
Qed.

Lemma char_count_app a b : char_count (a ++ b) = (char_count a + char_count b)%N.
Proof. unfold char_count. by rewrite filter_app, lenN_app. Qed.

Lemma char_count_encode c : is_scalar c -> char_count (utf8_encode c) = 1%N.
Proof.
  intros Hc. unfold is_scalar in Hc. unfold utf8_encode, char_count, is_cont.
  destruct (c <? 128)%N eqn:E1; [|destruct (c <? 2048)%N eqn:E2;
    [|destruct (c <? 65536)%N eqn:E3]].
  all: repeat (first [rewrite filter_nil | 
    rewrite filter_cons_True by (range_step; lia) |
    rewrite filter_cons_False by (range_step; lia)]); done.
Qed.

Lemma chars_count cs s : spells_chars cs s -> char_count s = lenN cs.
Proof.
  intros [H ->]. induction H as [|c cs Hc _ IH]; [done|]. cbn [map concat].
  rewrite char_count_app, char_count_encode, IH by done. by rewrite lenN_cons.
Qed.

Lemma n2b_eq b n : b2n b = n -> n2b n = b.
Proof. intros <-. apply n2b_b2n. Qed.

(** Decoding one character. *)
Lemma valid_chars s : utf8_valid s = true -> exists cs, spells_chars cs s.
Proof.
  induction s as [s IH] using utf8_ind. destruct s as [|b0 r0].
  { intros _. by exists []. }
  assert (Hcons : forall c l r, is_scalar c -> utf8_encode c = l -> b0 :: r0 = l ++ r ->
            (length r < length (b0 :: r0))%nat -> utf8_valid r = true ->
            exists cs, spells_chars cs (b0 :: r0)).
  { intros c l r Hc <- Heq Hlen Hr. destruct (IH r Hlen Hr) as (cs & Hcs & ->).
    exists (c :: cs). split; [by constructor|]. done. }
  cbn [utf8_valid]. unfold is_cont, in_range in *.
  pose proof (b2n_lt b0) as B0.
  destruct ((0 <=? b2n b0) && (b2n b0 <=? 127))%N eqn:E1.
  { intros Hv. apply (Hcons (b2n b0) [b0] r0); [unfold is_scalar; lia| |done|cbn; lia|done].
    unfold utf8_encode. replace (b2n b0 <? 128)%N with true by lia. by rewrite n2b_b2n. }
  destruct ((194 <=? b2n b0) && (b2n b0 <=? 223))%N eqn:E2.
  { destruct r0 as [|b1 r1]; [done|]. intros [H1 Hv]%andb_prop.
    pose proof (b2n_lt b1) as B1.
    set (c := ((b2n b0 - 192) * 64 + (b2n b1 - 128))%N).
    apply (Hcons c [b0; b1] r1); [unfold is_scalar, c; lia| |done|cbn; lia|done].
    unfold utf8_encode. replace (c <? 128)%N with false by lia.
    replace (c <? 2048)%N with true by lia. repeat f_equal; apply n2b_eq; lia. }
  destruct ((224 <=? b2n b0) && (b2n b0 <=? 239))%N eqn:E3.
  { destruct r0 as [|b1 [|b2 r2]]; [done|done|]. intros [[H1 H2]%andb_prop Hv]%andb_prop.
    pose proof (b2n_lt b1) as B1. pose proof (b2n_lt b2) as B2.
    set (c := ((b2n b0 - 224) * 4096 + (b2n b1 - 128) * 64 + (b2n b2 - 128))%N).
    assert (Hb : (128 <= b2n b1 <= 191)%N /\ (b2n b0 = 224 -> 160 <= b2n b1)%N /\
                 (b2n b0 = 237 -> b2n b1 <= 159)%N).
    { destruct ((224 <=? b2n b0) && (b2n b0 <=? 224))%N eqn:E4;
        [|destruct ((237 <=? b2n b0) && (b2n b0 <=? 237))%N eqn:E5]; lia. }
    apply (Hcons c [b0; b1; b2] r2); [unfold is_scalar, c; lia| |done|cbn; lia|done].
    unfold utf8_encode. replace (c <? 128)%N with false by lia.
    replace (c <? 2048)%N with false by lia. replace (c <? 65536)%N with true by lia.
    repeat f_equal; apply n2b_eq; lia. }
  destruct ((240 <=? b2n b0) && (b2n b0 <=? 244))%N eqn:E4; [|done].
  destruct r0 as [|b1 [|b2 [|b3 r3]]]; [done|done|done|].
  intros [[[H1 H2]%andb_prop H3]%andb_prop Hv]%andb_prop.
  pose proof (b2n_lt b1) as B1. pose proof (b2n_lt b2) as B2. pose proof (b2n_lt b3) as B3.
  set (c := ((b2n b0 - 240) * 262144 + (b2n b1 - 128) * 4096 + (b2n b2 - 128) * 64
             + (b2n b3 - 128))%N).
  assert (Hb : (128 <= b2n b1 <= 191)%N /\ (b2n b0 = 240 -> 144 <= b2n b1)%N /\
               (b2n b0 = 244 -> b2n b1 <= 143)%N).
  { destruct ((240 <=? b2n b0) && (b2n b0 <=? 240))%N eqn:E5;
      [|destruct ((244 <=? b2n b0) && (b2n b0 <=? 244))%N eqn:E6]; lia. }
  apply (Hcons c [b0; b1; b2; b3] r3); [unfold is_scalar, c; lia| |done|cbn; lia|done].
  unfold utf8_encode. replace (c <? 128)%N with false by lia.
  replace (c <? 2048)%N with false by lia. replace (c <? 65536)%N with false by lia.
  repeat f_equal; apply n2b_eq; lia.
Qed.
