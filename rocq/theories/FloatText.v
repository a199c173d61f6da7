(** Reading and printing a float in decimal: [str::parse::<f64>] and [f64::to_string] of Rust's
    library, as the command line calls them (cli/lib/src/parse.rs:140, cli/lib/src/print.rs:48).
    [Cli] takes these two functions as a parameter; here they are.

    They follow the documentation and the results of the library, not its algorithms: rounding is done
    with exact fractions, and the shortest digits are searched for from the left.  Simplified: the
    library gives up counting exponents with more than five digits, which makes a difference only for
    words of more than 65,000 bytes; case of the letters as from Rust 1.55, sign of zero as from 1.53. *)
From Coq Require Import String.
From Verif Require Import Bytes CommandId Cli.
From stdpp Require Import list.
From Coq Require Import NArith ZArith.
From Coq.Init Require Import Byte.
Local Open Scope Z_scope.

(** ** Reading *)

(** The digits at the front (helper for [parse::<f64>], cli/lib/src/parse.rs:140). *)
Fixpoint span_digits (s : bytes) : bytes * bytes :=
  match s with
  | [] => ([], [])
  | b :: r =>
    match digit b with
    | Some _ => let '(ds, rest) := span_digits r in (b :: ds, rest)
    | None => ([], s)
    end
  end.

(** Their number (helper for [parse::<f64>], cli/lib/src/parse.rs:140). *)
Definition digits_value (ds : bytes) : Z :=
  fold_left (fun n b => 10 * n + (Z.of_N (b2n b) - 48)) ds 0.

(** A sign at the front (helper for [parse::<f64>], cli/lib/src/parse.rs:140). *)
Definition take_sign (s : bytes) : bool * bytes :=
  match s with
  | b :: r => if decide (b = x2d) then (true, r) else if decide (b = x2b) then (false, r) else (false, s)
  | [] => (false, [])
  end.

(** What is after the digits: nothing, or an exponent (helper for [parse::<f64>], cli/lib/src/parse.rs:140). *)
Definition read_exponent (s : bytes) : option Z :=
  match s with
  | [] => Some 0
  | b :: r =>
    if decide (b = x65 \/ b = x45) then
      let '(neg, r) := take_sign r in
      match span_digits r with
      | ((_ :: _) as ds, []) => Some (if neg then - digits_value ds else digits_value ds)
      | _ => None
      end
    else None
  end.

(** Digits, perhaps with a point, at least one, and an exponent: the number is the first result times
    ten to the second (helper for [parse::<f64>], cli/lib/src/parse.rs:140). *)
Definition read_decimal (s : bytes) : option (Z * Z) :=
  let '(whole, r) := span_digits s in
  let '(frac, r) :=
    match r with
    | b :: r' => if decide (b = x2e) then span_digits r' else ([], r)
    | [] => ([], r)
    end in
  match whole ++ frac with
  | [] => None
  | ds =>
    match read_exponent r with
    | Some x => Some (digits_value ds, x - Z.of_nat (length frac))
    | None => None
    end
  end.

(** [eq_ignore_ascii_case] (helper for [parse::<f64>], cli/lib/src/parse.rs:140). *)
Definition ascii_lower (b : byte) : byte :=
  if ((65 <=? b2n b) && (b2n b <=? 90))%N then n2b (b2n b + 32) else b.
Definition same_letters (s t : bytes) : bool := bytes_eqb (map ascii_lower s) t.

(** The bits of the number closest to [num / den] units of 2^-1074, without the sign.  [k] units is the
    distance between numbers of that size (helper for [parse::<f64>], cli/lib/src/parse.rs:140). *)
Definition round_ratio (num den : Z) : N :=
  let e := Z.max 0 (Z.log2 (num / den) - 52) in
  let k := den * 2 ^ e in
  let m := num / k in
  let r := num mod k in
  let m := if (2 * r <? k) || ((2 * r =? k) && Z.even m) then m else m + 1 in
  Z.to_N (Z.min (e * 2 ^ 52 + m) (2047 * 2 ^ 52)).

(** The same for [m] times ten to the [k] (helper for [parse::<f64>], cli/lib/src/parse.rs:140). *)
Definition round_decimal (m k : Z) : N :=
  round_ratio (m * 10 ^ Z.max 0 k * 2 ^ 1074) (10 ^ Z.max 0 (- k)).

(** The bits with their sign (helper for [parse::<f64>], cli/lib/src/parse.rs:140). *)
Definition with_sign (neg : bool) (n : N) : N := ((if neg then 2 ^ 63 else 0) + n)%N.

(** [str::parse::<f64>().ok()], as its bits; cli/lib/src/parse.rs:140. *)
Definition read_f64 (w : bytes) : option N :=
  let '(neg, s) := take_sign w in
  match read_decimal s with
  | Some (m, k) => Some (with_sign neg (round_decimal m k))
  | None =>
    if same_letters s (lit "inf") || same_letters s (lit "infinity")
    then Some (with_sign neg (2047 * 2 ^ 52))
    else if same_letters s (lit "nan") then Some (with_sign neg (2047 * 2 ^ 52 + 2 ^ 51))
    else None
  end.

(** ** Printing *)

(** The number of units of 2^-1074, without the sign (helper for [f64::to_string], cli/lib/src/print.rs:48). *)
Definition units_of (n : N) : Z :=
  let e := Z.of_N n / 2 ^ 52 in
  if e =? 0 then Z.of_N n else (Z.of_N n - (e - 1) * 2 ^ 52) * 2 ^ (e - 1).

(** The shortest digits: the largest power of ten, not above the [k]th, with a multiple that is read as
    the bits [n]; of the multiples next to the number the closer one, the larger one if they are equally
    close (helper for [f64::to_string], cli/lib/src/print.rs:48).  More than twice the number is not tried.
    Out of fuel never happens: some multiple of 10^-1074 is the number. *)
Fixpoint shortest (fuel : nat) (n : N) (k : Z) : Z * Z :=
  match fuel with
  | O => (0, 0)
  | S fuel =>
    let num := units_of n * 10 ^ Z.max 0 (- k) in
    let den := 2 ^ 1074 * 10 ^ Z.max 0 k in
    if 2 * num <? den then shortest fuel n (k - 1) else
    let d := num / den in
    let down := (0 <? d) && (round_decimal d k =? n)%N in
    let up := (round_decimal (d + 1) k =? n)%N in
    if up && (negb down || (den <=? 2 * (num mod den))) then (d + 1, k)
    else if down then (d, k)
    else shortest fuel n (k - 1)
  end.

(** Digits and a power of ten without an exponent (helper for [f64::to_string], cli/lib/src/print.rs:48). *)
Definition place_point (ds : bytes) (k : Z) : bytes :=
  if 0 <=? k then ds ++ replicate (Z.to_nat k) x30
  else
    let p := Z.of_nat (length ds) + k in
    if p <=? 0 then lit "0." ++ replicate (Z.to_nat (- p)) x30 ++ ds
    else take (Z.to_nat p) ds ++ lit "." ++ drop (Z.to_nat p) ds.

(** [f64::to_string]; cli/lib/src/print.rs:48. *)
Definition show_float (f : N) : bytes :=
  let n := (f mod 2 ^ 63)%N in
  if (2047 * 2 ^ 52 <? n)%N then lit "NaN"
  else
    (if N.testbit f 63 then lit "-" else []) ++
    if (n =? 2047 * 2 ^ 52)%N then lit "inf"
    else if (n =? 0)%N then lit "0"
    else
      let '(d, k) := shortest 1400 n 308 in
      place_point (uint_bytes (N.to_uint (Z.to_N d))) k.

(** What [Cli] is given. *)
Definition rust_text : text := Text read_f64 show_float.
