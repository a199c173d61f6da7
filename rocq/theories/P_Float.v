(** Properties of floats: C73.
    What bits mean and what correct rounding is: [FloatSpec].  One is 2^1074 units of 2^-1074. *)
From Coq Require Import String.
From Verif Require Import Bytes BytesFacts Float64 Value CommandId Request Prog Commands
  EngineSpec WireSpec RequestSpec HistorySpec EngineProps FloatSpec FloatRound FloatUnique FloatProps.
From stdpp Require Import gmap list.
From Coq Require Import NArith ZArith.
Local Open Scope Z_scope.

(** C73: a float step stores and answers the correctly rounded exact result; an infinity stays as it
    is, and what is not a number stays not a number. *)
Theorem C73_rounded :
  forall e s req res c d k r f,
  env_ok e -> room s -> (c = CIncrement /\ d = 1 \/ c = CDecrement /\ d = -1) ->
  asks req c (Some KTFloat) (k :: r) -> ordinary k -> st_keys s !! k = Some (VFloat f) ->
  exists g, responds e res (VFloat g) (dispatch e s req res).2 /\
    st_keys (dispatch e s req res).1 = <[k := VFloat g]> (st_keys s) /\
    (number f -> rounds_to (units f + d * 2 ^ 1074) g) /\
    (forall neg, f = infinity neg -> g = infinity neg) /\
    (nan f -> nan g).
Proof. exact c73. Qed.
Print Assumptions C73_rounded.

(** C73: steps between whole numbers up to 2^53 are exact. *)
Theorem C73_whole :
  forall e s req res c k r f z d,
  env_ok e -> room s -> (c = CIncrement /\ d = 1 \/ c = CDecrement /\ d = -1) ->
  asks req c (Some KTFloat) (k :: r) -> ordinary k -> st_keys s !! k = Some (VFloat f) ->
  number f -> units f = z * 2 ^ 1074 -> - 2 ^ 53 <= z + d <= 2 ^ 53 ->
  exists g, responds e res (VFloat g) (dispatch e s req res).2 /\
    st_keys (dispatch e s req res).1 = <[k := VFloat g]> (st_keys s) /\
    number g /\ units g = (z + d) * 2 ^ 1074.
Proof. exact c73_whole. Qed.
Print Assumptions C73_whole.

(** C73: and that bound is sharp: incrementing 2^53 leaves it as it is (the sum is half way between
    two floats). *)
Theorem C73_stuck :
  forall e s req res k r f,
  env_ok e -> room s -> asks req CIncrement (Some KTFloat) (k :: r) -> ordinary k ->
  st_keys s !! k = Some (VFloat f) -> f = 4845873199050653696%N ->
  units f = 2 ^ 53 * 2 ^ 1074 /\
  responds e res (VFloat f) (dispatch e s req res).2 /\
  st_keys (dispatch e s req res).1 = st_keys s.
Proof. exact c73_stuck. Qed.
Print Assumptions C73_stuck.

(** C73: the sum of any two numbers is correctly rounded. *)
Theorem C73_sum :
  forall a b,
  number a -> number b -> rounds_to (units a + units b) (f64_add a b).
Proof. exact add_rounds. Qed.
Print Assumptions C73_sum.

(** C73: a sum that is zero is negative zero only if both numbers are negative (zeros). *)
Theorem C73_zero :
  forall a b,
  number a -> number b -> units a + units b = 0 ->
  f64_add a b = zero (negative a && negative b).
Proof. exact add_zero. Qed.
Print Assumptions C73_zero.

(** C73: sums with infinities and with what is not a number. *)
Theorem C73_special :
  forall a b,
  (nan a \/ nan b -> nan (f64_add a b)) /\
  (forall s, number b -> f64_add (infinity s) b = infinity s) /\
  (forall s, number a -> f64_add a (infinity s) = infinity s) /\
  (forall s, f64_add (infinity s) (infinity s) = infinity s) /\
  (forall s, nan (f64_add (infinity s) (infinity (negb s)))).
Proof. exact add_special. Qed.
Print Assumptions C73_special.

(** C73: and that says which bits a sum is: rounding has one result, except for the sign of zero. *)
Theorem C73_determined :
  forall a b r,
  number a -> number b -> (r < 2 ^ 64)%N ->
  f64_add a b = r <->
  (rounds_to (units a + units b) r /\
   (units a + units b = 0 -> r = zero (negative a && negative b)))%Z.
Proof. exact c73_determined. Qed.
Print Assumptions C73_determined.

(** Half, at the largest number (absorbed), across a power of two, and a tie that goes to even. *)
Example C73_nonvacuous :
  let s : store := store_of [(lit "f", VFloat 4602678819172646912)] in
  (env_ok (env_std true) /\ room s /\ ordinary (lit "f") /\
   asks (a_request CIncrement (Some KTFloat) [lit "f"]) CIncrement (Some KTFloat) [lit "f"]) /\
  number 4602678819172646912 /\ units 4602678819172646912 * 2 = 2 ^ 1074 /\
  (dispatch (env_std true) s (a_request CIncrement (Some KTFloat) [lit "f"]) []).1.(st_keys)
    !! lit "f" = Some (VFloat 4609434218613702656) /\
  units 4609434218613702656 * 2 = 3 * 2 ^ 1074 /\
  f64_add 9218868437227405311 4607182418800017408 = 9218868437227405311%N /\
  f64_add 9218868437227405311 9218868437227405311 = infinity false /\
  f64_add 4845873199050653695 4607182418800017408 = 4845873199050653696%N /\
  f64_add 4845873199050653697 4607182418800017408 = 4845873199050653698%N /\
  f64_add 1 9223372036854775810 = 9223372036854775809%N.
Proof.
  split.
  { split_and!; [apply env_std_ok | apply store_of_room | apply ordinary_dec; vm_compute; reflexivity
              | apply a_request_asks; [reflexivity|vm_compute; discriminate|vm_compute; reflexivity]]. }
  vm_compute. split_and!; try done.
Qed.
