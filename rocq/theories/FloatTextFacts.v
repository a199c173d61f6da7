(** Reading a decimal rounds it correctly; printing finds the shortest one (C113). *)
From Verif Require Import Bytes FloatSpec FloatRound FloatUnique Cli FloatText FloatTextSpec.
From Coq Require Import ZArith NArith Lia ZifyBool ZifyNat ZifyN.
From stdpp Require Import base tactics.
Local Open Scope Z_scope.

(** ** The closest rank *)

(** [r] is the rank whose height is closest to the ratio. *)
Definition best (num den : Z) (r : N) : Prop :=
  forall g, Z.abs (height r * den - num) <= Z.abs (height g * den - num) /\
    (Z.abs (height r * den - num) = Z.abs (height g * den - num) -> g <> r -> N.even r = true).

Lemma best_mono a b a' b' r r' : 0 < b -> 0 < b' -> a * b' <= a' * b ->
  best a b r -> best a' b' r' -> (r <= r')%N.
Proof.
  intros Hb Hb' Hle H H'. destruct (N.le_gt_cases r r') as [|Hlt]; [done|exfalso].
  pose proof (height_lt r' r Hlt) as Hh.
  destruct (H r') as [L E], (H' r) as [L' E'].
  assert (M : (height r + height r') * b <= 2 * a) by nia.
  assert (M' : 2 * a' <= (height r + height r') * b') by nia.
  assert (Q : 2 * a = (height r + height r') * b) by nia.
  assert (Q' : 2 * a' = (height r + height r') * b') by nia.
  specialize (E ltac:(nia) ltac:(lia)). specialize (E' ltac:(nia) ltac:(lia)).
  apply N.even_spec in E as [p ->], E' as [q ->].
  destruct (H (2 * q + 1)%N) as [G _].
  pose proof (height_lt (2 * q) (2 * q + 1) ltac:(lia)).
  pose proof (height_lt (2 * q + 1) (2 * p) ltac:(lia)). nia.
Qed.

Lemma best_unique a b a' b' r r' : 0 < b -> 0 < b' -> a * b' = a' * b ->
  best a b r -> best a' b' r' -> r = r'.
Proof.
  intros Hb Hb' Heq H H'. pose proof (best_mono a b a' b' r r'). pose proof (best_mono a' b' a b r' r).
  specialize (H0 Hb Hb' ltac:(lia) H H'). specialize (H1 Hb' Hb ltac:(lia) H' H). lia.
Qed.

Lemma best_exact r b : 0 < b -> best (height r * b) b r.
Proof.
  intros Hb g. replace (height r * b - height r * b) with 0 by lia. split; [lia|].
  intros E Hne. exfalso. apply Hne, height_inj. nia.
Qed.

(** The heights by exponent and significand. *)
Lemma height_at e m : 0 <= e -> (e = 0 /\ 0 <= m \/ 2 ^ 52 <= m) -> m <= 2 ^ 53 ->
  height (Z.to_N (e * 2 ^ 52 + m)) = m * 2 ^ e.
Proof.
  intros He Hm Hm'. unfold height, mag.
  change (2 ^ 52)%N with (Z.to_N (2 ^ 52)).
  rewrite <-Z2N.inj_div, <-Z2N.inj_mod by lia.
  destruct (Z.eq_dec m (2 ^ 53)) as [->|Hne].
  - replace ((e * 2 ^ 52 + 2 ^ 53) / 2 ^ 52) with (e + 2) by lia.
    replace ((e * 2 ^ 52 + 2 ^ 53) mod 2 ^ 52) with 0 by lia.
    destruct (N.eqb_spec (Z.to_N (e + 2)) 0); [lia|]. rewrite (Z2N.id (e + 2)) by lia.
    replace (e + 2 - 1) with (e + 1) by lia. rewrite (Z.pow_add_r 2 e 1) by lia.
    change (Z.of_N (Z.to_N 0)) with 0. set (P := 2 ^ e). clearbody P. lia.
  - destruct (Z.lt_ge_cases m (2 ^ 52)) as [Hlt|Hge].
    + destruct Hm as [[-> Hm]|]; [|lia].
      replace ((0 * 2 ^ 52 + m) / 2 ^ 52) with 0 by lia.
      replace ((0 * 2 ^ 52 + m) mod 2 ^ 52) with m by lia. cbn [Z.to_N N.eqb]. rewrite Z2N.id by lia. lia.
    + replace ((e * 2 ^ 52 + m) / 2 ^ 52) with (e + 1) by lia.
      replace ((e * 2 ^ 52 + m) mod 2 ^ 52) with (m - 2 ^ 52) by lia.
      destruct (N.eqb_spec (Z.to_N (e + 1)) 0); [lia|]. rewrite !Z2N.id by lia.
      replace (e + 1 - 1) with e by lia. f_equal. lia.
Qed.

Lemma even_at e m : 0 <= e -> 0 <= m -> Z.even m = true -> N.even (Z.to_N (e * 2 ^ 52 + m)) = true.
Proof.
  intros He Hm Hev. apply Z.even_spec in Hev as [q ->]. apply N.even_spec.
  exists (Z.to_N (e * 2 ^ 51 + q)). lia.
Qed.

Lemma near_best num den e m : 0 < den -> 0 <= e -> 0 <= m ->
  (e = 0 \/ 2 ^ 52 <= m /\ 2 ^ 52 * (den * 2 ^ e) <= num) -> m <= 2 ^ 53 ->
  2 * Z.abs (num - m * (den * 2 ^ e)) <= den * 2 ^ e ->
  (2 * Z.abs (num - m * (den * 2 ^ e)) = den * 2 ^ e -> Z.even m = true) ->
  best num den (Z.to_N (e * 2 ^ 52 + m)).
Proof.
  intros Hd He Hm Hc Hm' Hn Ht g. set (r := Z.to_N (e * 2 ^ 52 + m)).
  assert (Hr : height r = m * 2 ^ e) by (apply height_at; lia).
  assert (Hev : Z.even m = true -> N.even r = true) by (apply even_at; lia).
  pose proof (Z.pow_pos_nonneg 2 e ltac:(lia) He) as Hp. set (P := 2 ^ e) in *.
  assert (Hk : m * P * den = m * (den * P)) by lia. rewrite Hr, Hk. set (k := den * P) in *.
  assert (Hk0 : 0 < k) by (unfold k; nia).
  destruct (N.lt_trichotomy g r) as [Hg|[->|Hg]].
  - destruct (Z.eq_dec e 0) as [E0|E0]; [|destruct (Z.eq_dec m (2 ^ 52)) as [E1|E1]].
    1,3: assert (Hq : height g <= (m - 1) * P).
    1,3: assert (Hq' : height (Z.to_N (e * 2 ^ 52 + (m - 1))) = (m - 1) * P) by (apply height_at; lia);
         rewrite <-Hq'; destruct (N.eq_dec g (Z.to_N (e * 2 ^ 52 + (m - 1)))) as [->|]; [done|];
         apply Z.lt_le_incl, height_lt; lia.
    1,2: assert (Hq'' : height g * den <= m * k - k) by (unfold k; nia);
         split; [lia|]; intros E _; apply Hev, Ht; lia.
    assert (Hq : height g * den < m * k).
    { pose proof (height_lt g r Hg). rewrite Hr in *. unfold k. nia. }
    assert (m * k <= num) by (rewrite E1; lia). split; [lia|]. intros E _. lia.
  - split; [lia|done].
  - assert (Hq : (m + 1) * P <= height g).
    { destruct (Z.eq_dec m (2 ^ 53)) as [E1|E1].
      - assert (Hq' : height (Z.to_N ((e + 1) * 2 ^ 52 + (2 ^ 52 + 1))) = (2 ^ 52 + 1) * 2 ^ (e + 1)) by (apply height_at; lia).
        rewrite Z.pow_add_r in Hq' by lia. fold P in Hq'. change (2 ^ 1) with 2 in Hq'.
        transitivity (height (Z.to_N ((e + 1) * 2 ^ 52 + (2 ^ 52 + 1)))); [rewrite Hq', E1; lia|].
        destruct (N.eq_dec g (Z.to_N ((e + 1) * 2 ^ 52 + (2 ^ 52 + 1)))) as [->|]; [done|].
        apply Z.lt_le_incl, height_lt. lia.
      - assert (Hq' : height (Z.to_N (e * 2 ^ 52 + (m + 1))) = (m + 1) * P) by (apply height_at; lia).
        rewrite <-Hq'. destruct (N.eq_dec g (Z.to_N (e * 2 ^ 52 + (m + 1)))) as [->|]; [done|].
        apply Z.lt_le_incl, height_lt. lia. }
    assert (Hq'' : m * k + k <= height g * den) by (unfold k; nia).
    split; [lia|]. intros E _. apply Hev, Ht. lia.
Qed.

(** The ranks of the numbers end here. *)
Definition top_rank : N := (2047 * 2 ^ 52)%N.

Lemma round_best num den : 0 <= num -> 0 < den ->
  exists r, best num den r /\ round_ratio num den = N.min r top_rank.
Proof.
  intros Hn Hd. unfold round_ratio. set (q := num / den).
  assert (Hq0 : 0 <= q) by (apply Z.div_pos; lia).
  set (e := Z.max 0 (Z.log2 q - 52)). assert (He : 0 <= e) by lia.
  pose proof (Z.pow_pos_nonneg 2 e ltac:(lia) He) as Hp. set (P := 2 ^ e) in *.
  set (k := den * P). assert (Hk : 0 < k) by (unfold k; nia).
  set (m := num / k). set (r := num mod k).
  pose proof (Z.div_mod num k ltac:(lia)) as Hdm. fold m r in Hdm.
  pose proof (Z.mod_pos_bound num k Hk) as Hr. fold r in Hr.
  assert (Hm0 : 0 <= m) by (apply Z.div_pos; lia).
  assert (Hm : m = q / P). { unfold m, q, k. by rewrite Z.div_div by lia. }
  assert (Hm1 : m < 2 ^ 53).
  { rewrite Hm. apply Z.div_lt_upper_bound; [lia|]. unfold P.
    destruct (Z.eq_dec q 0) as [->|]; [cbn; lia|].
    pose proof (Z.log2_spec q ltac:(lia)) as [_ Hl].
    rewrite <-Z.pow_add_r by lia. eapply Z.lt_le_trans; [exact Hl|]. apply Z.pow_le_mono_r; lia. }
  assert (Hc : e = 0 \/ 2 ^ 52 <= m).
  { destruct (Z.eq_dec e 0); [by left|right]. rewrite Hm. apply Z.div_le_lower_bound; [lia|].
    assert (q <> 0) by (intros E; unfold e in *; rewrite E in *; cbn in *; lia).
    pose proof (Z.log2_spec q ltac:(lia)) as [Hl _]. unfold P.
    rewrite Z.mul_comm, <-Z.pow_add_r by lia. replace (52 + e) with (Z.log2 q) by lia. done. }
  set (m' := if (2 * r <? k) || ((2 * r =? k) && Z.even m) then m else m + 1).
  exists (Z.to_N (e * 2 ^ 52 + m')). split; [|unfold top_rank; lia].
  assert (Hm' : m' = m /\ (2 * r < k \/ 2 * r = k /\ Z.even m = true) \/
                m' = m + 1 /\ (k < 2 * r \/ 2 * r = k /\ Z.even (m + 1) = true)).
  { unfold m'. destruct (Z.ltb_spec (2 * r) k); cbn; [left; lia|].
    destruct (Z.eqb_spec (2 * r) k); cbn; [|right; lia].
    destruct (Z.even m) eqn:Ev; [left; lia|]. right. split; [done|]. right. split; [done|].
    by rewrite Z.even_add, Ev. }
  apply near_best; try lia; fold P; fold k.
  - destruct Hc as [?|Hc]; [by left|right]. split; [lia|]. nia.
  - intros E. destruct Hm' as [[-> [?|[? ?]]]|[-> [?|[? ?]]]]; try done; nia.
Qed.

Lemma round_mono a b a' b' : 0 <= a -> 0 < b -> 0 <= a' -> 0 < b' -> a * b' <= a' * b ->
  (round_ratio a b <= round_ratio a' b')%N.
Proof.
  intros ? ? ? ? H. destruct (round_best a b) as (r & Hr & ->); [done..|].
  destruct (round_best a' b') as (r' & Hr' & ->); [done..|].
  pose proof (best_mono a b a' b' r r'). lia.
Qed.

Lemma round_same a b a' b' : 0 <= a -> 0 < b -> 0 <= a' -> 0 < b' -> a * b' = a' * b ->
  round_ratio a b = round_ratio a' b'.
Proof.
  intros ? ? ? ? H. pose proof (round_mono a b a' b'). pose proof (round_mono a' b' a b). lia.
Qed.

Lemma round_exact a b r : 0 <= a -> 0 < b -> a = height r * b -> (r < top_rank)%N -> round_ratio a b = r.
Proof.
  intros Ha Hb -> Hr. destruct (round_best (height r * b) b) as (r' & Hr' & ->); [done..|].
  rewrite (best_unique _ b _ b r' r Hb Hb eq_refl Hr' (best_exact r b Hb)). lia.
Qed.

(** ** Correct rounding *)

Lemma top_height : height top_rank = overflow + 2 ^ 2044 /\ height (top_rank - 1) = overflow - 2 ^ 2044.
Proof. split; vm_compute; reflexivity. Qed.

Lemma best_below num den r : 0 <= num -> 0 < den -> best num den r -> num < overflow * den -> (r < top_rank)%N.
Proof.
  intros Hn Hd Hb Hlt. destruct (N.le_gt_cases top_rank r) as [Hr|]; [exfalso|done].
  destruct top_height as [H1 H2]. assert (Hp : 0 < 2 ^ 2044) by (apply Z.pow_pos_nonneg; lia).
  set (c := 2 ^ 2044) in *. clearbody c.
  assert (Hh : height top_rank <= height r).
  { destruct (N.eq_dec top_rank r) as [->|]; [done|]. apply Z.lt_le_incl, height_lt. lia. }
  destruct (Hb (top_rank - 1)%N) as [L _]. rewrite H2 in L. set (o := overflow) in *. clearbody o.
  set (h := height r) in *. clearbody h. nia.
Qed.

Lemma best_above num den r : 0 <= num -> 0 < den -> best num den r -> overflow * den <= num -> (top_rank <= r)%N.
Proof.
  intros Hn Hd Hb Hge. destruct (N.le_gt_cases top_rank r) as [|Hr]; [done|exfalso].
  destruct top_height as [H1 H2]. assert (Hp : 0 < 2 ^ 2044) by (apply Z.pow_pos_nonneg; lia).
  set (c := 2 ^ 2044) in *. clearbody c.
  destruct (Hb top_rank) as [L E]. rewrite H1 in L, E.
  set (o := overflow) in *. clearbody o.
  assert (Hh : height r <= o - c).
  { rewrite <-H2. destruct (N.eq_dec r (top_rank - 1)) as [->|]; [done|]. apply Z.lt_le_incl, height_lt. lia. }
  assert (Hh' : height r = o - c) by nia.
  assert (Er : r = (top_rank - 1)%N) by (apply height_inj; lia).
  rewrite Hh' in E. assert (N.even r = true) by (apply E; [nia|lia]). by rewrite Er in *.
Qed.

Lemma best_nearest (neg : bool) num den r : 0 <= num -> 0 < den -> best num den r -> (r < top_rank)%N ->
  nearest_ratio (if neg then - num else num) den (pattern neg r).
Proof.
  intros Hn Hd Hb Hr. destruct (pattern_number neg r Hr) as [N1 U1]. split; [done|].
  intros g Ng. rewrite U1.
  assert (Hu : exists h, (h = height (rank (g mod 2 ^ 64)) \/ h = - height (rank (g mod 2 ^ 64))) /\
                 units g = h).
  { exists (units g). split; [|done].
    assert (Ug : units g = units (g mod 2 ^ 64)%N).
    { unfold units, negative, magnitude, exponent, fraction.
      rewrite N.mod_pow2_bits_low by done.
      assert (E1 : ((g mod 2 ^ 64) mod 2 ^ 52 = g mod 2 ^ 52)%N).
      { change (2 ^ 64)%N with (2 ^ 52 * 2 ^ 12)%N. rewrite N.mod_mul_r by done.
        rewrite N.mul_comm, N.mod_add by done. by rewrite N.mod_mod. }
      assert (E2 : (((g mod 2 ^ 64) / 2 ^ 52) mod 2 ^ 11 = (g / 2 ^ 52) mod 2 ^ 11)%N).
      { pose proof (N.div_mod' g (2 ^ 64)) as D. set (q := (g / 2 ^ 64)%N) in *.
        set (y := (g mod 2 ^ 64)%N) in *.
        replace (g / 2 ^ 52)%N with (y / 2 ^ 52 + (2 * q) * 2 ^ 11)%N; [by rewrite N.mod_add|].
        rewrite D. replace (2 ^ 64 * q + y)%N with (y + (2 * q * 2 ^ 11) * 2 ^ 52)%N by lia.
        by rewrite N.div_add. }
      by rewrite E1, E2. }
    rewrite Ug, units_height by (by apply N.mod_lt). destruct (negative _); [by right|by left]. }
  destruct Hu as (h & Hh & ->). set (gr := rank (g mod 2 ^ 64)) in *.
  destruct (Hb gr) as [L E]. pose proof (height_nonneg gr). pose proof (height_nonneg r).
  assert (Hev : N.even (pattern neg r) = N.even r).
  { unfold pattern. rewrite N.even_add. by destruct neg, (N.even r). }
  rewrite Hev. destruct (Hb 0%N) as [L0 E0]. rewrite height_0 in L0, E0.
  destruct neg, Hh as [-> | ->].
  - split; [nia|]. intros Ht Hne. destruct (N.eq_dec r 0) as [->|Hr0]; [done|].
    apply E0; [|done]. nia.
  - split; [nia|]. intros Ht Hne. apply E; [nia|]. intros ->. lia.
  - split; [nia|]. intros Ht Hne. apply E; [nia|]. intros ->. lia.
  - split; [nia|]. intros Ht Hne. destruct (N.eq_dec r 0) as [->|Hr0]; [done|].
    apply E0; [|done]. nia.
Qed.

Lemma round_rounds (neg : bool) num den : 0 <= num -> 0 < den ->
  rounds_ratio (if neg then - num else num) den (with_sign neg (round_ratio num den)).
Proof.
  intros Hn Hd. destruct (round_best num den Hn Hd) as (r & Hb & ->).
  assert (Ha : Z.abs (if neg then - num else num) = num) by (destruct neg; lia).
  split; rewrite Ha; intros H.
  - pose proof (best_below num den r Hn Hd Hb H). rewrite N.min_l by lia.
    by apply best_nearest.
  - pose proof (best_above num den r Hn Hd Hb H). rewrite N.min_r by lia.
    assert (0 < overflow) by (vm_compute; reflexivity).
    assert (0 < num) by nia. unfold with_sign, infinity, top_rank.
    by replace ((if neg then - num else num) <? 0) with neg by (destruct neg; lia).
Qed.
