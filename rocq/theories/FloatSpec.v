(** What the 64 bits of a float mean, and what a correctly rounded result is (IEEE 754 binary64, round
    to nearest, ties to even).  Numbers are whole multiples of 2^-1074, so integers suffice. *)
From Coq Require Import ZArith NArith.

(** The fields of a bit pattern: 52 bits of fraction, 11 bits of exponent, the sign. *)
Definition fraction (n : N) : N := (n mod 2 ^ 52)%N.
Definition exponent (n : N) : N := ((n / 2 ^ 52) mod 2 ^ 11)%N.
Definition negative (n : N) : bool := N.testbit n 63.

(** Neither infinite nor NaN. *)
Definition number (n : N) : Prop := exponent n <> 2047%N.

Definition infinity (neg : bool) : N := ((if neg then 2 ^ 63 else 0) + 2047 * 2 ^ 52)%N.
Definition nan (n : N) : Prop := exponent n = 2047%N /\ fraction n <> 0%N.
Definition zero (neg : bool) : N := (if neg then 2 ^ 63 else 0)%N.

(** The number, in units of 2^-1074. *)
Definition magnitude (n : N) : Z :=
  if (exponent n =? 0)%N then Z.of_N (fraction n)
  else (2 ^ 52 + Z.of_N (fraction n)) * 2 ^ (Z.of_N (exponent n) - 1).
Definition units (n : N) : Z := if negative n then (- magnitude n)%Z else magnitude n.

(** [r] is a number closest to [x] units; of two that are equally close, the even one. *)
Definition nearest (x : Z) (r : N) : Prop :=
  number r /\
  forall g, number g ->
    (Z.abs (units r - x) <= Z.abs (units g - x))%Z /\
    (Z.abs (units r - x) = Z.abs (units g - x) -> units g <> units r -> N.even r = true).

(** Half a step beyond the largest number, in units: what is not below this is rounded to infinity. *)
Definition overflow : Z := 2 ^ 2098 - 2 ^ 2044.

(** The correctly rounded result [r] of an exact result of [x] units. *)
Definition rounds_to (x : Z) (r : N) : Prop :=
  (Z.abs x < overflow -> nearest x r)%Z /\
  (overflow <= Z.abs x -> r = infinity (x <? 0))%Z.
