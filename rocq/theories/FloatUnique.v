(** Rounding to nearest has one result (C73). *)
From Verif Require Import Bytes Float64 FloatSpec FloatFacts FloatRound.
From Coq Require Import ZArith NArith Lia ZifyBool ZifyNat ZifyN.
From stdpp Require Import base tactics.

(** The parts of a bit pattern. *)
Lemma parts (n : N) : (n < 2 ^ 64)%N ->
  n = ((if negative n then 2 ^ 63 else 0) + exponent n * 2 ^ 52 + fraction n)%N /\
  (exponent n < 2048)%N /\ (fraction n < 2 ^ 52)%N.
Proof.
  intros Hn. unfold negative, exponent, fraction. rewrite N.testbit_eqb.
  set (q := (n / 2 ^ 52)%N). pose proof (N.div_mod' n (2 ^ 52)) as H1. fold q in H1.
  replace (n / 2 ^ 63)%N with (q / 2 ^ 11)%N
    by (unfold q; rewrite N.div_div by discriminate; reflexivity).
  pose proof (N.div_mod' q (2 ^ 11)) as H2.
  pose proof (N.mod_lt n (2 ^ 52) ltac:(discriminate)) as H3.
  pose proof (N.mod_lt q (2 ^ 11) ltac:(discriminate)) as H4.
  change (2 ^ 52)%N with 4503599627370496%N in *. change (2 ^ 11)%N with 2048%N in *.
  change (2 ^ 63)%N with 9223372036854775808%N in *. change (2 ^ 64)%N with 18446744073709551616%N in *.
  set (t := (q / 2048)%N) in *. assert (Ht : (t < 2)%N) by lia.
  split; [|lia]. destruct (N.eqb_spec (t mod 2) 1) as [Hb|Hb].
  - assert (t = 1)%N by (destruct (N.lt_trichotomy t 1) as [?|[?|?]]; [assert (t = 0)%N as -> by lia; done|done|lia]). lia.
  - assert (t = 0)%N by (destruct (N.lt_trichotomy t 1) as [?|[->|?]]; [lia|done|lia]). lia.
Qed.

(** Without the sign: how far up the list of magnitudes the pattern stands. *)
Definition rank (n : N) : N := (exponent n * 2 ^ 52 + fraction n)%N.

Definition mag (E F : N) : Z :=
  if (E =? 0)%N then Z.of_N F else ((2 ^ 52 + Z.of_N F) * 2 ^ (Z.of_N E - 1))%Z.

Lemma mag_pos E F : (0 <= mag E F)%Z.
Proof. unfold mag. destruct (N.eqb_spec E 0); [lia|]. pose proof (Z.pow_nonneg 2 (Z.of_N E - 1)). nia. Qed.

Lemma mag_zero E F : mag E F = 0%Z -> E = 0%N /\ F = 0%N.
Proof.
  unfold mag. destruct (N.eqb_spec E 0); [lia|].
  pose proof (Z.pow_pos_nonneg 2 (Z.of_N E - 1) ltac:(lia) ltac:(lia)). nia.
Qed.

Lemma mag_next E F : (F + 1 < 2 ^ 52)%N -> (mag E F < mag E (F + 1))%Z.
Proof.
  intros HF. unfold mag. destruct (N.eqb_spec E 0); [lia|].
  pose proof (Z.pow_pos_nonneg 2 (Z.of_N E - 1) ltac:(lia) ltac:(lia)). nia.
Qed.

Lemma mag_carry E : (mag E (2 ^ 52 - 1) < mag (E + 1) 0)%Z.
Proof.
  unfold mag. destruct (N.eqb_spec (E + 1) 0); [lia|]. destruct (N.eqb_spec E 0) as [->|HE].
  - reflexivity.
  - replace (Z.of_N (E + 1) - 1)%Z with (Z.succ (Z.of_N E - 1)) by lia. rewrite Z.pow_succ_r by lia.
    pose proof (Z.pow_pos_nonneg 2 (Z.of_N E - 1) ltac:(lia) ltac:(lia)). lia.
Qed.

(** The magnitude as a function of the rank. *)
Definition height (r : N) : Z := mag (r / 2 ^ 52) (r mod 2 ^ 52).

Lemma height_step r : (height r < height (r + 1))%Z.
Proof.
  unfold height. pose proof (N.mod_lt r (2 ^ 52) ltac:(discriminate)) as Hm.
  pose proof (N.div_mod' r (2 ^ 52)) as Hd.
  set (q := (r / 2 ^ 52)%N) in *. set (m := (r mod 2 ^ 52)%N) in *.
  destruct (N.eq_dec m (2 ^ 52 - 1)) as [Hc|Hc].
  - rewrite <-(N.div_unique (r + 1) (2 ^ 52) (q + 1) 0), <-(N.mod_unique (r + 1) (2 ^ 52) (q + 1) 0) by lia.
    rewrite Hc. apply mag_carry.
  - rewrite <-(N.div_unique (r + 1) (2 ^ 52) q (m + 1)), <-(N.mod_unique (r + 1) (2 ^ 52) q (m + 1)) by lia.
    apply mag_next. lia.
Qed.

Lemma height_lt r1 r2 : (r1 < r2)%N -> (height r1 < height r2)%Z.
Proof.
  intros H. replace r2 with (r1 + (r2 - r1))%N by lia. assert (0 < r2 - r1)%N as Hd by lia.
  set (d := (r2 - r1)%N) in *. clearbody d. clear H. induction d as [|d IH] using N.peano_ind; [lia|].
  destruct (N.eq_dec d 0) as [->|Hn]; [apply height_step|].
  pose proof (height_step (r1 + d)). replace (r1 + N.succ d)%N with (r1 + d + 1)%N by lia.
  specialize (IH ltac:(lia)). lia.
Qed.

Lemma height_inj r1 r2 : height r1 = height r2 -> r1 = r2.
Proof.
  intros H. destruct (N.lt_trichotomy r1 r2) as [?|[?|?]]; [|done|];
    [pose proof (height_lt r1 r2)|pose proof (height_lt r2 r1)]; lia.
Qed.

Lemma magnitude_height n : (n < 2 ^ 64)%N -> magnitude n = height (rank n).
Proof.
  intros Hn. destruct (parts n Hn) as (_ & HE & HF). unfold height, rank.
  rewrite <-(N.div_unique (exponent n * 2 ^ 52 + fraction n) (2 ^ 52) (exponent n) (fraction n)) by lia.
  rewrite <-(N.mod_unique (exponent n * 2 ^ 52 + fraction n) (2 ^ 52) (exponent n) (fraction n)) by lia.
  done.
Qed.

(** A pattern from a sign and a rank. *)
Definition pattern (s : bool) (r : N) : N := ((if s then 2 ^ 63 else 0) + r)%N.

Lemma pattern_parts s r : (r < 2 ^ 63)%N ->
  negative (pattern s r) = s /\ rank (pattern s r) = r /\ exponent (pattern s r) = (r / 2 ^ 52)%N.
Proof.
  intros Hr. pose proof (N.div_mod' r (2 ^ 52)) as Hd.
  pose proof (N.mod_lt r (2 ^ 52) ltac:(discriminate)) as Hm.
  assert (He : (r / 2 ^ 52 < 2 ^ 11)%N) by (apply N.div_lt_upper_bound; [discriminate|exact Hr]).
  destruct (fields_of s (r / 2 ^ 52) (r mod 2 ^ 52) Hm He) as (H1 & H2 & H3 & _).
  replace (pattern s r) with ((if s then 2 ^ 63 else 0) + (r / 2 ^ 52) * 2 ^ 52 + r mod 2 ^ 52)%N
    by (unfold pattern; lia).
  unfold rank. rewrite H1, H2, H3. split_and!; lia.
Qed.

Lemma rank_even n : (n < 2 ^ 64)%N -> N.even n = N.even (rank n).
Proof.
  intros Hn. destruct (parts n Hn) as (H & _). rewrite H at 1. unfold rank.
  rewrite !N.even_add. by destruct (negative n), (N.even (exponent n * 2 ^ 52)), (N.even (fraction n)).
Qed.

Lemma rank_number n : (n < 2 ^ 64)%N -> number n -> (rank n < 2047 * 2 ^ 52)%N.
Proof. intros Hn. destruct (parts n Hn) as (_ & HE & HF). unfold number, rank. lia. Qed.

Lemma pattern_number s r : (r < 2047 * 2 ^ 52)%N ->
  number (pattern s r) /\ units (pattern s r) = (if s then - height r else height r)%Z.
Proof.
  intros Hr. destruct (pattern_parts s r) as (H1 & H2 & H3); [lia|].
  assert (He : (r / 2 ^ 52 < 2047)%N) by (apply N.div_lt_upper_bound; [discriminate|lia]).
  split; [unfold number; lia|].
  assert (Hp : (pattern s r < 2 ^ 64)%N) by (unfold pattern; destruct s; lia).
  unfold units. by rewrite H1, (magnitude_height _ Hp), H2.
Qed.

Lemma units_height n : (n < 2 ^ 64)%N ->
  units n = (if negative n then - height (rank n) else height (rank n))%Z.
Proof. intros Hn. unfold units. by rewrite magnitude_height. Qed.

Lemma height_0 : height 0 = 0%Z.
Proof. reflexivity. Qed.
Lemma height_nonneg r : (0 <= height r)%Z.
Proof. apply mag_pos. Qed.
Lemma height_pos r : (0 < r)%N -> (0 < height r)%Z.
Proof. intros H. rewrite <-height_0. by apply height_lt. Qed.

Lemma same_units a b : (a < 2 ^ 64)%N -> (b < 2 ^ 64)%N -> units a = units b ->
  a = b \/ exists s t, a = zero s /\ b = zero t.
Proof.
  intros Ha Hb H. rewrite !units_height in H by done.
  destruct (parts a Ha) as (Ea & _), (parts b Hb) as (Eb & _).
  pose proof (height_nonneg (rank a)). pose proof (height_nonneg (rank b)).
  assert (K : forall r, height r = 0%Z -> r = 0%N) by (intros r Hr; apply height_inj; by rewrite Hr).
  destruct (negative a) eqn:Na, (negative b) eqn:Nb.
  - left. assert (rank a = rank b) by (apply height_inj; lia). unfold rank in *. lia.
  - right. assert (rank a = 0%N) by (apply K; lia). assert (rank b = 0%N) by (apply K; lia).
    exists true, false. unfold rank, zero in *. lia.
  - right. assert (rank a = 0%N) by (apply K; lia). assert (rank b = 0%N) by (apply K; lia).
    exists false, true. unfold rank, zero in *. lia.
  - left. assert (rank a = rank b) by (apply height_inj; lia). unfold rank in *. lia.
Qed.

(** Between two even numbers there is another. *)
Lemma another a b : (a < 2 ^ 64)%N -> (b < 2 ^ 64)%N -> number a -> number b ->
  N.even a = true -> N.even b = true -> (units a < units b)%Z ->
  exists g, number g /\ (units a < units g < units b)%Z.
Proof.
  intros Ha Hb Na Nb Ea Eb H. rewrite rank_even in Ea, Eb by done.
  pose proof (rank_number a Ha Na) as Ra. pose proof (rank_number b Hb Nb) as Rb.
  rewrite (units_height a), (units_height b) in * by done.
  set (p := rank a) in *. set (q := rank b) in *. clearbody p q.
  assert (Hev : forall n, N.even n = true -> (n mod 2 = 0)%N).
  { intros n Hn. apply N.even_spec in Hn as [m ->]. rewrite N.mul_comm. by apply N.mod_mul. }
  apply Hev in Ea, Eb. pose proof (height_nonneg p). pose proof (height_nonneg q).
  destruct (negative a), (negative b).
  - assert (q < p)%N. { destruct (N.lt_trichotomy p q) as [?|[->|?]]; [pose proof (height_lt p q); lia|lia|done]. }
    assert (q + 1 < p)%N by lia. destruct (pattern_number true (q + 1)) as [? E]; [lia|].
    exists (pattern true (q + 1)). split; [done|]. rewrite E.
    pose proof (height_lt q (q + 1)). pose proof (height_lt (q + 1) p). lia.
  - destruct (N.eq_dec p 0) as [->|Hp].
    + rewrite height_0 in *. assert (1 < q)%N. { destruct (N.eq_dec q 0) as [->|]; [rewrite height_0 in H; lia|lia]. }
      destruct (pattern_number false 1) as [? E]; [lia|].
      exists (pattern false 1). split; [done|]. rewrite E.
      pose proof (height_pos 1). pose proof (height_lt 1 q). lia.
    + destruct (N.eq_dec q 0) as [->|Hq].
      * rewrite height_0 in *. destruct (pattern_number true 1) as [? E]; [lia|].
        exists (pattern true 1). split; [done|]. rewrite E.
        pose proof (height_pos 1). pose proof (height_lt 1 p). lia.
      * destruct (pattern_number false 0) as [? E]; [lia|].
        exists (pattern false 0). split; [done|]. rewrite E, height_0.
        pose proof (height_pos p). pose proof (height_pos q). lia.
  - lia.
  - assert (p < q)%N. { destruct (N.lt_trichotomy p q) as [?|[->|?]]; [done|lia|pose proof (height_lt q p); lia]. }
    assert (p + 1 < q)%N by lia. destruct (pattern_number false (p + 1)) as [? E]; [lia|].
    exists (pattern false (p + 1)). split; [done|]. rewrite E.
    pose proof (height_lt p (p + 1)). pose proof (height_lt (p + 1) q). lia.
Qed.

Lemma nearest_units x a b : (a < 2 ^ 64)%N -> (b < 2 ^ 64)%N -> nearest x a -> nearest x b -> units a = units b.
Proof.
  intros Ha Hb [Na Ma] [Nb Mb].
  destruct (Ma b Nb) as [L1 E1], (Mb a Na) as [L2 E2].
  assert (Heq : Z.abs (units a - x) = Z.abs (units b - x)) by lia.
  destruct (Z.eq_dec (units a) (units b)) as [|Hne]; [done|].
  specialize (E1 Heq ltac:(congruence)). specialize (E2 ltac:(congruence) Hne).
  destruct (Z.lt_trichotomy (units a) (units b)) as [H|[H|H]]; [|done|].
  - destruct (another a b) as (g & Ng & Hg); try done. destruct (Ma g Ng) as [Lg _]. lia.
  - destruct (another b a) as (g & Ng & Hg); try done. destruct (Ma g Ng) as [Lg _]. lia.
Qed.

Lemma rounds_unique x a b : (a < 2 ^ 64)%N -> (b < 2 ^ 64)%N -> rounds_to x a -> rounds_to x b ->
  a = b \/ exists s t, a = zero s /\ b = zero t.
Proof.
  intros Ha Hb [A1 A2] [B1 B2]. destruct (Z.lt_ge_cases (Z.abs x) overflow) as [H|H].
  - apply same_units; try done. by apply (nearest_units x); auto.
  - left. by rewrite A2, B2.
Qed.

Lemma rounds_zero x s : rounds_to x (zero s) -> x = 0%Z.
Proof.
  intros [H1 H2]. destruct (Z.lt_ge_cases (Z.abs x) overflow) as [H|H].
  - destruct (H1 H) as [_ M]. destruct (Z.eq_dec x 0) as [|Hx]; [done|].
    destruct (pattern_number (x <? 0)%Z 1) as [N1 E1]; [lia|].
    destruct (M _ N1) as [L _]. rewrite E1 in L. destruct (zero_number s) as [_ E0]. rewrite E0 in L.
    change (height 1) with 1%Z in L. destruct (Z.ltb_spec x 0); lia.
  - specialize (H2 H). exfalso. by destruct s, (x <? 0)%Z.
Qed.

Lemma c73_determined a b r : number a -> number b -> (r < 2 ^ 64)%N ->
  f64_add a b = r <->
  (rounds_to (units a + units b) r /\
   (units a + units b = 0 -> r = zero (negative a && negative b)))%Z.
Proof.
  intros Ha Hb Hr. split.
  - intros <-. split; [by apply add_rounds|]. by apply add_zero.
  - intros [H1 H2]. destruct (Z.eq_dec (units a + units b)%Z 0) as [Hz|Hz].
    + rewrite H2 by done. by apply add_zero.
    + destruct (rounds_unique (units a + units b)%Z (f64_add a b) r) as [|(s & t & E1 & E2)]; try done.
      * apply f64_add_lt.
      * by apply add_rounds.
      * subst r. by destruct Hz; eapply rounds_zero.
Qed.
