(** What a UTF-8 string is: the encoding of a sequence of Unicode scalar values. *)
From Verif Require Import Bytes.
From stdpp Require Import list.
From Coq Require Import NArith.

(** Code points except surrogates. *)
Definition is_scalar (c : N) : Prop := (c < 55296 \/ 57344 <= c < 1114112)%N.

Definition utf8_encode (c : N) : bytes :=
  if (c <? 128)%N then [n2b c]
  else if (c <? 2048)%N then [n2b (192 + c / 64); n2b (128 + c mod 64)]
  else if (c <? 65536)%N then
    [n2b (224 + c / 4096); n2b (128 + c / 64 mod 64); n2b (128 + c mod 64)]
  else [n2b (240 + c / 262144); n2b (128 + c / 4096 mod 64); n2b (128 + c / 64 mod 64);
        n2b (128 + c mod 64)].

(** [s] spells the characters [cs]. *)
Definition spells_chars (cs : list N) (s : bytes) : Prop :=
  Forall is_scalar cs /\ s = concat (map utf8_encode cs).
