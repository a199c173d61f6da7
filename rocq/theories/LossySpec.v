(** What bytes that may not be text are shown as (C70): the Unicode standard's "substitution of
    maximal subparts" (section 3.9), which the documentation of [String::from_utf8_lossy] promises
    in its words "replaces any invalid UTF-8 sequences with U+FFFD". *)
From Verif Require Import Bytes Utf8Spec.
From stdpp Require Import list.
From Coq Require Import NArith.

(** Some character's bytes begin with these. *)
Definition could_begin (p : bytes) : Prop :=
  exists c, is_scalar c /\ p `prefix_of` utf8_encode c.

(** No character's bytes are at the start of these. *)
Definition no_char_at (bs : bytes) : Prop :=
  forall c, is_scalar c -> ~ utf8_encode c `prefix_of` bs.

(** [repaired bs t]: characters stay; where there is none, the longest part that could have begun
    one, or a single byte when it could not, becomes U+FFFD. *)
Inductive repaired : bytes -> bytes -> Prop :=
| repaired_end : repaired [] []
| repaired_char c r t :
    is_scalar c -> repaired r t -> repaired (utf8_encode c ++ r) (utf8_encode c ++ t)
| repaired_part p r t :
    no_char_at (p ++ r) ->
    (could_begin p \/ length p = 1) -> p <> [] ->
    (forall b r', r = b :: r' -> ~ could_begin (p ++ [b])) ->
    repaired r t -> repaired (p ++ r) (utf8_encode 65533 ++ t).
