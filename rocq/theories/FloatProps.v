(** Float increments are correctly rounded (C73). *)
From Verif Require Import Bytes Float64 Value CommandId Request Prog Commands EngineSpec WireSpec RequestSpec HistorySpec EngineProps
  FloatSpec FloatRound.
From stdpp Require Import gmap list.
From Coq Require Import ZArith NArith Floats.SpecFloat Lia.
From Coq Require Import ZifyBool ZifyNat ZifyN.
Local Open Scope Z_scope.

Lemma amount_units c x : float_amount c x ->
  number x /\ ((c = CIncrement /\ units x = 2 ^ 1074) \/ (c = CDecrement /\ units x = - 2 ^ 1074)).
Proof.
  intros [[-> ->]|[-> ->]]; (split; [by vm_compute|]); [left|right]; (split; [done|]); by vm_compute.
Qed.

Lemma c73 e s req res c d k r f :
  env_ok e -> room s -> (c = CIncrement /\ d = 1 \/ c = CDecrement /\ d = -1) ->
  asks req c (Some KTFloat) (k :: r) -> ordinary k -> st_keys s !! k = Some (VFloat f) ->
  exists g, responds e res (VFloat g) (dispatch e s req res).2 /\
    st_keys (dispatch e s req res).1 = <[k := VFloat g]> (st_keys s) /\
    (number f -> rounds_to (units f + d * 2 ^ 1074) g) /\
    (forall neg, f = infinity neg -> g = infinity neg) /\
    (nan f -> nan g).
Proof.
  intros He Hr Hc Hq Ho Hk.
  assert (exists x, float_amount c x) as [x Hx].
  { destruct Hc as [[-> _]|[-> _]]; eexists; [left|right]; done. }
  destruct (c22_float e s req res c k r f x He Hr Hq Hx Ho Hk) as [H1 H2].
  destruct (amount_units c x Hx) as [Hn Hu].
  exists (f64_add f x). split_and!; try done.
  - intros Hf. replace (d * 2 ^ 1074) with (units x); [by apply add_rounds|].
    destruct Hu as [[-> ->]|[-> ->]], Hc as [[? ->]|[? ->]]; done.
  - intros neg ->. by apply (add_special x x).
  - intros Hf. apply (add_special f x). by left.
Qed.

(** Every whole number up to 2^53 is a float. *)
Lemma whole_float z : - 2 ^ 53 <= z <= 2 ^ 53 -> exists g, number g /\ units g = z * 2 ^ 1074.
Proof.
  assert (Hpos : forall (neg : bool) p, Zpos p <= 2 ^ 53 ->
    exists g, number g /\ units g = (if neg then - Zpos p else Zpos p) * 2 ^ 1074).
  { intros neg p Hp.
    destruct (digits_bounds p) as [D1 D2]. set (d := Zpos (digits2_pos p)) in *.
    assert (0 < d) by (unfold d; lia).
    destruct (decide (Zpos p = 2 ^ 53)) as [Hp53|Hne].
    - destruct (bits_of_finite neg (2 ^ 52) 1) as (B1 & B2 & _).
      { split_and!; [done|lia|lia|by left]. }
      eexists. split; [exact B1|]. rewrite B2. cbn [value]. rewrite Hp53. by destruct neg.
    - assert (d <= 53).
      { assert (d - 1 < 53); [|lia]. apply (Z.pow_lt_mono_r_iff 2); lia. }
      assert (Hk : 0 < 2 ^ (53 - d)) by (apply Z.pow_pos_nonneg; lia).
      destruct (bits_of_finite neg (Z.to_pos (Zpos p * 2 ^ (53 - d))) (d - 53)) as (B1 & B2 & _).
      { unfold canon. rewrite Z2Pos.id by nia. split_and!; try lia.
        - apply Z.lt_le_trans with (2 ^ d * 2 ^ (53 - d)); [nia|].
          rewrite <-Z.pow_add_r by lia. apply Z.pow_le_mono_r; lia.
        - left. apply Z.le_trans with (2 ^ (d - 1) * 2 ^ (53 - d)); [|nia].
          rewrite <-Z.pow_add_r by lia. apply Z.pow_le_mono_r; lia. }
      eexists. split; [exact B1|]. rewrite B2. cbn [value]. rewrite Z2Pos.id by nia.
      assert (2 ^ (53 - d) * 2 ^ (d - 53 + 1074) = 2 ^ 1074) as Hpow
        by (rewrite <-Z.pow_add_r by lia; f_equal; lia).
      rewrite <-Hpow. destruct neg; ring. }
  intros Hz. destruct z as [|p|p].
  - exists 0%N. by vm_compute.
  - destruct (Hpos false p) as (g & G1 & G2); [lia|]. by exists g.
  - destruct (Hpos true p) as (g & G1 & G2); [lia|]. by exists g.
Qed.

Lemma whole_small z : - 2 ^ 53 <= z <= 2 ^ 53 -> Z.abs (z * 2 ^ 1074) < overflow.
Proof.
  intros Hz. assert (H : 2 ^ 53 * 2 ^ 1074 < overflow) by (by vm_compute).
  assert (0 < 2 ^ 1074) by (by vm_compute).
  rewrite Z.abs_mul, (Z.abs_eq (2 ^ 1074)) by lia. set (T := 2 ^ 1074) in *. clearbody T. nia.
Qed.

Lemma c73_whole e s req res c k r f z d :
  env_ok e -> room s -> (c = CIncrement /\ d = 1 \/ c = CDecrement /\ d = -1) ->
  asks req c (Some KTFloat) (k :: r) -> ordinary k -> st_keys s !! k = Some (VFloat f) ->
  number f -> units f = z * 2 ^ 1074 -> - 2 ^ 53 <= z + d <= 2 ^ 53 ->
  exists g, responds e res (VFloat g) (dispatch e s req res).2 /\
    st_keys (dispatch e s req res).1 = <[k := VFloat g]> (st_keys s) /\
    number g /\ units g = (z + d) * 2 ^ 1074.
Proof.
  intros He Hr Hc Hq Ho Hk Hf Hu Hz.
  destruct (c73 e s req res c d k r f He Hr Hc Hq Ho Hk) as (g & H1 & H2 & H3 & _).
  exists g. split; [done|]. split; [done|]. specialize (H3 Hf).
  rewrite Hu, <-Z.mul_add_distr_r in H3.
  destruct H3 as [H3 _]. destruct (H3 (whole_small _ Hz)) as [Hg Hmin]. split; [done|].
  destruct (whole_float _ Hz) as (w & W1 & W2). destruct (Hmin w W1) as [Hle _]. rewrite W2 in Hle.
  set (y := (z + d) * 2 ^ 1074) in *. clearbody y. lia.
Qed.

(** Beyond, a counter can stand still: one more than 2^53 is 2^53. *)
Lemma c73_stuck e s req res k r f :
  env_ok e -> room s -> asks req CIncrement (Some KTFloat) (k :: r) -> ordinary k ->
  st_keys s !! k = Some (VFloat f) -> f = 4845873199050653696%N ->
  units f = 2 ^ 53 * 2 ^ 1074 /\
  responds e res (VFloat f) (dispatch e s req res).2 /\
  st_keys (dispatch e s req res).1 = st_keys s.
Proof.
  intros He Hr Hq Ho Hk ->. split; [by vm_compute|].
  destruct (c22_float e s req res CIncrement k r _ f64_one He Hr Hq ltac:(by left) Ho Hk) as [H1 H2].
  replace (f64_add 4845873199050653696 f64_one) with 4845873199050653696%N in * by (by vm_compute).
  split; [done|]. rewrite H2. by apply insert_id.
Qed.
