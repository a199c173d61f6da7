(** What decimal texts of floats mean. *)
From Coq Require Import String.
From Verif Require Import Bytes FloatSpec CliSpec.
From stdpp Require Import list.
From Coq Require Import NArith ZArith.
From Coq.Init Require Import Byte.
Local Open Scope Z_scope.

(** ** Rounding fractions *)

(** [r] is a number closest to [num / den] units of 2^-1074; of two that are equally close, the even one. *)
Definition nearest_ratio (num den : Z) (r : N) : Prop :=
  number r /\
  forall g, number g ->
    Z.abs (units r * den - num) <= Z.abs (units g * den - num) /\
    (Z.abs (units r * den - num) = Z.abs (units g * den - num) -> units g <> units r -> N.even r = true).

(** The correctly rounded [num / den] units. *)
Definition rounds_ratio (num den : Z) (r : N) : Prop :=
  (Z.abs num < overflow * den -> nearest_ratio num den r) /\
  (overflow * den <= Z.abs num -> r = infinity (num <? 0)).

(** The float closest to [m] times ten to the [k], or to minus that.  One is 2^1074 units; the sign of
    zero is that of the text. *)
Definition closest (neg : bool) (m k : Z) (r : N) : Prop :=
  (r < 2 ^ 64)%N /\ negative r = neg /\
  rounds_ratio ((if neg then - m else m) * 10 ^ Z.max 0 k * 2 ^ 1074) (10 ^ Z.max 0 (- k)) r.

(** ** Texts *)

(** Digits with or without a point, at least one, and perhaps an exponent: [m] times ten to the [k]. *)
Definition numeral (s : bytes) (m k : Z) : Prop :=
  exists whole frac ex x,
    digits (whole ++ frac) m /\ whole ++ frac <> [] /\
    (s = whole ++ ex /\ frac = [] \/ s = whole ++ lit "."%string ++ frac ++ ex) /\
    (ex = [] /\ x = 0 \/ exists c t, (c = x65 \/ c = x45) /\ ex = c :: t /\ decimal t x) /\
    k = x - Z.of_nat (length frac).

(** A letter in either case. *)
Definition letter (b c : byte) : Prop := b = c \/ (b2n b + 32 = b2n c)%N.
Definition letters (s : bytes) (t : string) : Prop := Forall2 letter s (lit t).

(** A sign, or none. *)
Definition signed_text (w : bytes) (neg : bool) (s : bytes) : Prop :=
  w = s /\ neg = false \/ w = lit "+"%string ++ s /\ neg = false \/ w = lit "-"%string ++ s /\ neg = true.

(** The float a word stands for. *)
Definition float_word (w : bytes) (f : N) : Prop :=
  exists neg s, signed_text w neg s /\
    ((exists m k, numeral s m k /\ closest neg m k f) \/
     ((letters s "inf" \/ letters s "infinity") /\ f = infinity neg) \/
     (letters s "nan" /\ f = (infinity neg + 2 ^ 51)%N)).

(** How far [m] times ten to the [k] is from [u] units (on a scale that depends on [k] only). *)
Definition distance (m k u : Z) : Z :=
  Z.abs (m * 10 ^ Z.max 0 k * 2 ^ 1074 - u * 10 ^ Z.max 0 (- k)).

(** A minus sign, if there is one. *)
Definition minus_sign (neg : bool) : bytes := if neg then lit "-"%string else [].

(** Only digits and points. *)
Definition digits_and_points (s : bytes) : Prop := Forall (fun b => b ∈ lit "0123456789."%string) s.
