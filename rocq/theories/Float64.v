(** IEEE 754 binary64 values as 64-bit patterns ([f64::to_bits]).

    Addition and subtraction are those of Coq's standard library
    ([SpecFloat], round to nearest even).  Simplification: a NaN result is the
    canonical quiet NaN; hardware may propagate a payload. *)
From Coq Require Import ZArith NArith Floats.SpecFloat.

(** The format of [f64] (engine/src/state/value.rs:9): 53 bits of precision. *)
Definition f64_prec : Z := 53.
(** The format of [f64] (engine/src/state/value.rs:9): exponents up to 1024. *)
Definition f64_emax : Z := 1024.

(** The width of the fraction field of [f64] (engine/src/state/value.rs:9). *)
Definition two52 : N := 4503599627370496.
(** The sign bit of [f64] (engine/src/state/value.rs:9). *)
Definition two63 : N := 9223372036854775808.

(** Bits to value;
    [f64::from_be_bytes], engine/src/command/request/mod.rs:53, engine/src/command/response/context.rs:231. *)
Definition f64_of_bits (n : N) : spec_float :=
  let s := N.testbit n 63 in
  let e := ((n / two52) mod 2048)%N in
  let m := (n mod two52)%N in
  if (e =? 2047)%N then
    if (m =? 0)%N then S754_infinity s else S754_nan
  else if (e =? 0)%N then
    match m with
    | N0 => S754_zero s
    | Npos p => S754_finite s p (-1074)
    end
  else
    match (m + two52)%N with
    | N0 => S754_zero s
    | Npos p => S754_finite s p (Z.of_N e - 1075)
    end.

(** The sign bit as written by [f64::to_be_bytes], engine/src/command/request/builder.rs:170, engine/src/command/response/mod.rs:167. *)
Definition sign_bit (s : bool) : N := if s then two63 else 0%N.

(** Value to bits (of canonical floats);
    [f64::to_be_bytes], engine/src/command/request/builder.rs:170, engine/src/command/response/mod.rs:167. *)
Definition f64_to_bits (f : spec_float) : N :=
  match f with
  | S754_zero s => sign_bit s
  | S754_infinity s => (sign_bit s + 2047 * two52)%N
  | S754_nan => (2047 * two52 + 2251799813685248)%N
  | S754_finite s p e =>
    if (Npos p <? two52)%N
    then (sign_bit s + Npos p)%N
    else (sign_bit s + Z.to_N (e + 1075) * two52 + (Npos p - two52))%N
  end.

(** [a + b] and [a - b] on [f64]; engine/src/command/impl/increment_by.rs:17, decrement_by.rs:17. *)
Definition f64_add (a b : N) : N :=
  f64_to_bits (SFadd f64_prec f64_emax (f64_of_bits a) (f64_of_bits b)).
(** [a - b], engine/src/command/impl/decrement_by.rs:17. *)
Definition f64_sub (a b : N) : N :=
  f64_to_bits (SFsub f64_prec f64_emax (f64_of_bits a) (f64_of_bits b)).

(** [0f64], [1f64], [-1f64];
    engine/src/state/value.rs:76; engine/src/command/impl/increment.rs:15, decrement.rs:15, decrement_by.rs:17. *)
Definition f64_zero : N := 0.
(** [1f64], engine/src/command/impl/increment.rs:15. *)
Definition f64_one : N := 4607182418800017408.
(** [-1f64], engine/src/command/impl/decrement.rs:15. *)
Definition f64_minus_one : N := 13830554455654793216.
