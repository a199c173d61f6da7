(** The lemmas behind C70: the printer's treatment of bytes is the specified one. *)
From Verif Require Import Bytes BytesFacts Utf8 Utf8Spec Utf8Facts Cli LossySpec.
From stdpp Require Import list.
From Coq Require Import NArith Lia.
From Coq.Init Require Import Byte.

Lemma encode_not_nil c : utf8_encode c <> [].
Proof. unfold utf8_encode. by repeat (case_match). Qed.

Lemma encode_valid c : is_scalar c -> utf8_valid (utf8_encode c) = true.
Proof. intros H. by rewrite <-(app_nil_r (utf8_encode c)), utf8_encode_valid. Qed.

(** A valid text without valid proper beginnings is one character. *)
Lemma one_char l : utf8_valid l = true -> l <> [] ->
  (forall p q, l = p ++ q -> p <> [] -> q <> [] -> utf8_valid p = false) ->
  exists c, is_scalar c /\ utf8_encode c = l.
Proof.
  intros Hv Hl Hp. destruct (valid_chars l Hv) as (cs & Hcs & E).
  destruct Hcs as [|c cs Hc Hcs]; [done|]. exists c. split; [done|]. cbn [map concat] in E.
  destruct (concat (map utf8_encode cs)) as [|x y] eqn:Er; [by rewrite E, app_nil_r|].
  exfalso. pose proof (Hp _ _ E (encode_not_nil c) ltac:(done)) as H.
  by rewrite encode_valid in H.
Qed.

Lemma begins_by l q : utf8_valid (l ++ q) = true -> l <> [] ->
  (forall p q', l ++ q = p ++ q' -> p <> [] -> q' <> [] -> utf8_valid p = false) ->
  could_begin l.
Proof.
  intros Hv Hl Hp. destruct (one_char (l ++ q)) as (c & Hc & E); [done|by destruct l|done|].
  exists c. split; [done|]. rewrite E. by exists q.
Qed.

Lemma not_begins l :
  (forall q, utf8_valid (l ++ q) = false) -> ~ could_begin l.
Proof.
  intros H (c & Hc & q & E). specialize (H q). rewrite <-E in H. by rewrite encode_valid in H.
Qed.

Lemma no_char l :
  (forall p q, l = p ++ q -> p <> [] -> utf8_valid p = false) -> no_char_at l.
Proof.
  intros H c Hc [q ->]. pose proof (H _ _ eq_refl (encode_not_nil c)) as E.
  by rewrite encode_valid in E.
Qed.

(** Computing the validity of a list whose first bytes are known. *)
Ltac known :=
  repeat match goal with
         | H : Utf8.in_range ?a ?b ?x = _ |- context [Utf8.in_range ?a ?b ?x] => rewrite H
         | H : is_cont ?x = _ |- context [is_cont ?x] => rewrite H
         | H : (if _ then _ else _) = _ |- _ => rewrite H
         end.
Ltac valid := cbn [app utf8_valid]; known; cbn [andb]; try done.
(** [p] is a beginning of a list given by [E]. *)
Ltac beginning p E :=
  repeat (destruct p as [|? p]; [try done; try (by valid)|
    cbn [app] in E; first [discriminate E | injection E as <- E]; try (by valid)]).

Definition rest_of (b : byte) (bs : bytes) (p r : bytes) : Prop :=
  b :: bs = p ++ r /\ p <> [] /\
  ((lossy (b :: bs) = p ++ lossy r /\ exists c, is_scalar c /\ p = utf8_encode c) \/
   (lossy (b :: bs) = utf8_encode 65533 ++ lossy r /\ no_char_at (b :: bs) /\
    (could_begin p \/ length p = 1) /\
    (forall b r', r = b :: r' -> ~ could_begin (p ++ [b])))).

Lemma lossy_rest b bs : exists p r, rest_of b bs p r.
Proof.
  assert (Hchar : forall p r, b :: bs = p ++ r -> p <> [] -> lossy (b :: bs) = p ++ lossy r ->
    utf8_valid p = true -> (forall p' q, p = p' ++ q -> p' <> [] -> q <> [] -> utf8_valid p' = false) ->
    exists p r, rest_of b bs p r).
  { intros p r E Hp Hl Hv Hs. exists p, r. split; [done|]. split; [done|]. left. split; [done|].
    destruct (one_char p Hv Hp Hs) as (c & ? & ?). by exists c. }
  assert (Hbad : forall p r, b :: bs = p ++ r -> p <> [] -> lossy (b :: bs) = replacement ++ lossy r ->
    (forall p' q, b :: bs = p' ++ q -> p' <> [] -> utf8_valid p' = false) ->
    (could_begin p \/ length p = 1) ->
    (forall x r', r = x :: r' -> forall q, utf8_valid ((p ++ [x]) ++ q) = false) ->
    exists p r, rest_of b bs p r).
  { intros p r E Hp Hl Hn Hb Hm. exists p, r. split; [done|]. split; [done|]. right.
    split; [exact Hl|]. split; [by apply no_char|]. split; [done|].
    intros x r' Hr. by eapply not_begins, Hm. }
  cbn [lossy] in Hchar, Hbad.
  destruct (Utf8.in_range 0 127 b) eqn:H0.
  { apply (Hchar [b] bs); try done; [by valid|]. intros p q E. beginning p E. }
  destruct (Utf8.in_range 194 223 b) eqn:H1.
  { assert (Hc : could_begin [b]).
    { apply (begins_by [b] [x80]); [by valid|done|]. intros p q E. beginning p E. }
    destruct bs as [|b1 bs].
    { apply (Hbad [b] []); try done; [|by left]. intros p q E ?. beginning p E. }
    destruct (is_cont b1) eqn:C1.
    - apply (Hchar [b; b1] bs); try done; [by valid|]. intros p q E ? ?. beginning p E.
    - apply (Hbad [b] (b1 :: bs)); try done; [|by left|].
      + intros p q E ?. beginning p E.
      + intros x r' [= <- <-] q. by valid. }
  destruct (Utf8.in_range 224 239 b) eqn:H2.
  { assert (Hc : could_begin [b]).
    { apply (begins_by [b] [if Utf8.in_range 224 224 b then xa0 else x80; x80]); [|done|].
      - valid. destruct (Utf8.in_range 224 224 b); [done|].
        by destruct (Utf8.in_range 237 237 b).
      - intros p q E ? ?. beginning p E. }
    destruct bs as [|b1 bs].
    { apply (Hbad [b] []); try done; [|by left]. intros p q E ?. beginning p E. }
    destruct (if Utf8.in_range 224 224 b then Utf8.in_range 160 191 b1
              else if Utf8.in_range 237 237 b then Utf8.in_range 128 159 b1 else is_cont b1) eqn:C1.
    2: { apply (Hbad [b] (b1 :: bs)); try done; [|by left|].
         - intros p q E ?. destruct p as [|? [|? [|? p]]]; [done|..]; cbn [app] in E.
           + injection E as <- E. by valid.
           + injection E as <- <- E. by valid.
           + injection E as <- <- E. by valid.
         - intros x r' [= <- <-] q. cbn [app]. destruct q as [|? q]; by valid. }
    assert (Hc1 : could_begin [b; b1]).
    { apply (begins_by [b; b1] [x80]); [by valid|done|]. intros p q E ? ?. beginning p E. }
    destruct bs as [|b2 bs].
    { apply (Hbad [b; b1] []); try done; [|by left]. intros p q E ?. beginning p E. }
    destruct (is_cont b2) eqn:C2.
    - apply (Hchar [b; b1; b2] bs); try done; [by valid|]. intros p q E ? ?. beginning p E.
    - apply (Hbad [b; b1] (b2 :: bs)); try done; [|by left|].
      + intros p q E ?. beginning p E.
      + intros x r' [= <- <-] q. by valid. }
  destruct (Utf8.in_range 240 244 b) eqn:H3.
  { assert (Hc : could_begin [b]).
    { apply (begins_by [b] [if Utf8.in_range 240 240 b then x90 else x80; x80; x80]); [|done|].
      - valid. destruct (Utf8.in_range 240 240 b); [done|].
        by destruct (Utf8.in_range 244 244 b).
      - intros p q E ? ?. beginning p E. }
    destruct bs as [|b1 bs].
    { apply (Hbad [b] []); try done; [|by left]. intros p q E ?. beginning p E. }
    destruct (if Utf8.in_range 240 240 b then Utf8.in_range 144 191 b1
              else if Utf8.in_range 244 244 b then Utf8.in_range 128 143 b1 else is_cont b1) eqn:C1.
    2: { apply (Hbad [b] (b1 :: bs)); try done; [|by left|].
         - intros p q E ?. destruct p as [|? [|? [|? [|? p]]]]; [done|..]; cbn [app] in E.
           + injection E as <- E. by valid.
           + injection E as <- <- E. by valid.
           + injection E as <- <- E. by valid.
           + injection E as <- <- E. by valid.
         - intros x r' [= <- <-] q. cbn [app]. destruct q as [|? [|? q]]; by valid. }
    assert (Hc1 : could_begin [b; b1]).
    { apply (begins_by [b; b1] [x80; x80]); [by valid|done|]. intros p q E ? ?. beginning p E. }
    destruct bs as [|b2 bs].
    { apply (Hbad [b; b1] []); try done; [|by left]. intros p q E ?. beginning p E. }
    destruct (is_cont b2) eqn:C2.
    2: { apply (Hbad [b; b1] (b2 :: bs)); try done; [|by left|].
         - intros p q E ?. destruct p as [|? [|? [|? [|? p]]]]; [done|..]; cbn [app] in E.
           + injection E as <- E. by valid.
           + injection E as <- <- E. by valid.
           + injection E as <- <- <- E. by valid.
           + injection E as <- <- <- E. by valid.
         - intros x r' [= <- <-] q. cbn [app]. destruct q as [|? q]; by valid. }
    assert (Hc2 : could_begin [b; b1; b2]).
    { apply (begins_by [b; b1; b2] [x80]); [by valid|done|]. intros p q E ? ?. beginning p E. }
    destruct bs as [|b3 bs].
    { apply (Hbad [b; b1; b2] []); try done; [|by left]. intros p q E ?. beginning p E. }
    destruct (is_cont b3) eqn:C3.
    - apply (Hchar [b; b1; b2; b3] bs); try done; [by valid|]. intros p q E ? ?. beginning p E.
    - apply (Hbad [b; b1; b2] (b3 :: bs)); try done; [|by left|].
      + intros p q E ?. beginning p E.
      + intros x r' [= <- <-] q. by valid. }
  apply (Hbad [b] bs); try done; [|by right|].
  - intros p q E ?. destruct p as [|? p]; [done|]. cbn [app] in E. injection E as <- E. by valid.
  - intros x r' -> q. by valid.
Qed.

Lemma prefix_eq_or (a b r1 r2 : bytes) : a ++ r1 = b ++ r2 ->
  a = b \/ (exists x q, b = a ++ x :: q /\ r1 = (x :: q) ++ r2) \/
  (exists x q, a = b ++ x :: q /\ r2 = (x :: q) ++ r1).
Proof.
  revert b. induction a as [|y a IH]; intros [|z b] E; cbn [app] in E.
  - by left.
  - right. left. exists z, b. by rewrite E.
  - right. right. exists y, a. by rewrite <-E.
  - injection E as <- E. destruct (IH b E) as [->|[(x & q & -> & ->)|(x & q & -> & ->)]]; eauto 10.
Qed.

Lemma could_begin_app p q : could_begin (p ++ q) -> could_begin p.
Proof. intros (c & Hc & H). exists c. split; [done|]. etrans; [|exact H]. by exists q. Qed.

(** No character begins with another. *)
Lemma encode_free c c' x q : is_scalar c -> is_scalar c' -> utf8_encode c' <> utf8_encode c ++ x :: q.
Proof.
  intros Hc Hc' E. pose proof (encode_valid c' Hc') as Hv. rewrite E, utf8_encode_valid in Hv by done.
  pose proof (char_count_encode c' Hc') as Hn. rewrite E, char_count_app, char_count_encode in Hn by done.
  destruct (valid_chars _ Hv) as [cs Hcs]. rewrite (chars_count _ _ Hcs) in Hn.
  destruct Hcs as [_ Hcs]. destruct cs as [|y cs]; [done|]. rewrite lenN_cons in Hn. lia.
Qed.

Lemma lossy_repaired bs : repaired bs (lossy bs).
Proof.
  remember (length bs) as n eqn:Hn. revert bs Hn.
  induction (lt_wf n) as [n _ IH]. intros [|b bs] ->; [constructor|].
  destruct (lossy_rest b bs) as (p & r & E & Hp & H).
  assert (Hr : repaired r (lossy r)).
  { apply (IH (length r)); [|done]. rewrite E, app_length. destruct p; [done|cbn; lia]. }
  destruct H as [[-> (c & Hc & ->)]|(-> & Hn & Hb & Hm)]; rewrite E.
  - by constructor.
  - apply repaired_part; try done. by rewrite <-E.
Qed.

(** The parts of the specification are determined. *)
Lemma repaired_lossy bs t : repaired bs t -> t = lossy bs.
Proof.
  induction 1 as [|c r t Hc _ IH|p r t Hn Hb Hp Hm _ IH]; [done| |]; subst t.
  - destruct (utf8_encode c ++ r) as [|b bs] eqn:Eb; [by destruct (utf8_encode c) eqn:E; [edestruct encode_not_nil|]|].
    destruct (lossy_rest b bs) as (p' & r' & E & Hp & [[-> (c' & Hc' & ->)]|(_ & Hn & _)]).
    + rewrite <-Eb in E. destruct (prefix_eq_or _ _ _ _ E) as [Ee|[(x & q & Ee & _)|(x & q & Ee & _)]].
      * rewrite Ee in E. apply app_inv_head in E as <-. by rewrite Ee.
      * by edestruct (encode_free c c').
      * by edestruct (encode_free c' c).
    + exfalso. apply (Hn c Hc). rewrite <-Eb. by exists r.
  - destruct (p ++ r) as [|b bs] eqn:Eb; [by destruct p|].
    destruct (lossy_rest b bs) as (p' & r' & E & Hp' & [[_ (c' & Hc' & ->)]|(-> & _ & Hb' & Hm')]).
    + exfalso. apply (Hn c' Hc'). rewrite E. by exists r'.
    + rewrite <-Eb in E. destruct (prefix_eq_or _ _ _ _ E) as [->|[(x & q & -> & ->)|(x & q & -> & ->)]].
      * by apply app_inv_head in E as ->.
      * exfalso. apply (Hm x (q ++ r') eq_refl). apply (could_begin_app _ q).
        rewrite <-app_assoc. cbn [app]. destruct Hb' as [?|Hl]; [done|].
        rewrite app_length in Hl. destruct p; [done|cbn in Hl; lia].
      * exfalso. apply (Hm' x (q ++ r) eq_refl). apply (could_begin_app _ q).
        rewrite <-app_assoc. cbn [app]. destruct Hb as [?|Hl]; [done|].
        rewrite app_length in Hl. destruct p'; [done|cbn in Hl; lia].
Qed.

Lemma c70_repaired bs t : repaired bs t <-> t = lossy bs.
Proof. split; [apply repaired_lossy|]. intros ->. apply lossy_repaired. Qed.
