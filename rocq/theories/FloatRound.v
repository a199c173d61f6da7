(** The sum of two floats is the correctly rounded exact sum (C73). *)
From stdpp Require Import base tactics.
From Verif Require Import Bytes Float64 FloatFacts FloatSpec.
From Coq Require Import ZArith NArith Floats.SpecFloat Lia.
From Coq Require Import ZifyBool ZifyNat ZifyN.
Local Open Scope Z_scope.

(** ** Digits *)

Lemma digits_bounds p : 2 ^ (Zpos (digits2_pos p) - 1) <= Zpos p < 2 ^ Zpos (digits2_pos p).
Proof.
  induction p as [p IH|p IH|]; cbn [digits2_pos].
  - rewrite Pos2Z.inj_succ. replace (Z.succ (Zpos (digits2_pos p)) - 1) with (Z.succ (Zpos (digits2_pos p) - 1)) by lia.
    rewrite !Z.pow_succ_r by lia. lia.
  - rewrite Pos2Z.inj_succ. replace (Z.succ (Zpos (digits2_pos p)) - 1) with (Z.succ (Zpos (digits2_pos p) - 1)) by lia.
    rewrite !Z.pow_succ_r by lia. lia.
  - cbn. lia.
Qed.

Lemma digits_unique p n : 2 ^ (n - 1) <= Zpos p < 2 ^ n -> Zpos (digits2_pos p) = n.
Proof.
  intros [H1 H2]. destruct (digits_bounds p) as [H3 H4].
  assert (0 <= n) by (destruct (Z.neg_nonneg_cases n) as [Hn|]; [rewrite Z.pow_neg_r in H2; lia|done]).
  set (d := Zpos (digits2_pos p)) in *. assert (0 < d) by lia.
  assert (n - 1 < d).
  { apply (Z.pow_lt_mono_r_iff 2); lia. }
  assert (d - 1 < n).
  { apply (Z.pow_lt_mono_r_iff 2); lia. }
  lia.
Qed.

(** ** Shifting *)

Lemma shl_align_val p e e' : e' <= e ->
  Zpos (fst (shl_align p e e')) = Zpos p * 2 ^ (e - e') /\ snd (shl_align p e e') = e'.
Proof.
  intros H. unfold shl_align. destruct (e' - e) as [|q|q] eqn:E; [|lia|].
  - cbn. replace (e - e') with 0 by lia. rewrite Z.pow_0_r. lia.
  - cbn [fst snd]. split; [|done]. rewrite shift_pos_correct.
    replace (e - e') with (Zpos q) by lia. rewrite Z.pow_pos_fold. lia.
Qed.

(** The record after dividing [m0] by [k]. *)
Definition enc (m0 k : Z) (r : shr_record) : Prop :=
  exists rem, m0 = shr_m r * k + rem /\ 0 <= rem < k /\ 0 <= shr_m r /\
    shr_r r = (k <=? 2 * rem) /\ shr_s r = negb (2 * rem =? (if shr_r r then k else 0)).

Lemma enc_start m0 : 0 <= m0 -> enc m0 1 (Build_shr_record m0 false false).
Proof. intros H. exists 0. cbn. lia. Qed.

Lemma enc_shr_1 m0 k r : 0 < k -> enc m0 k r -> enc m0 (k * 2) (shr_1 r).
Proof.
  intros Hk (rem & -> & Hrem & Hq & Hr & Hs). destruct r as [q br bs].
  cbn [shr_m shr_r shr_s] in *.
  exists (rem + (q mod 2) * k).
  assert (Hd : q = 2 * (q / 2) + q mod 2) by (apply Z.div_mod; lia).
  assert (Hm : 0 <= q mod 2 < 2) by (apply Z.mod_pos_bound; lia).
  assert (shr_1 (Build_shr_record q br bs) =
    Build_shr_record (q / 2) (negb (q mod 2 =? 0)) (orb br bs)) as ->.
  { unfold shr_1. destruct q as [|[p|p|]|p]; [done| | |done|lia].
    - replace (Zpos p~1) with (1 + Zpos p * 2) by lia. rewrite Z.div_add, Z.mod_add by lia. done.
    - replace (Zpos p~0) with (0 + Zpos p * 2) by lia. rewrite Z.div_add, Z.mod_add by lia. done. }
  cbn [shr_m shr_r shr_s].
  assert (q mod 2 = 0 \/ q mod 2 = 1) as [E|E] by lia; rewrite E in *; cbn [negb Z.eqb].
  - split_and!; try nia; destruct br; cbn [orb]; lia.
  - split_and!; try nia; destruct br; cbn [orb]; lia.
Qed.

Lemma enc_iter m0 p : forall k r, 0 < k -> enc m0 k r ->
  enc m0 (k * 2 ^ Zpos p) (SpecFloat.iter_pos shr_1 p r).
Proof.
  induction p as [p IH|p IH|]; intros k r Hk H; cbn [SpecFloat.iter_pos].
  - assert (0 < 2 ^ Zpos p) by (apply Z.pow_pos_nonneg; lia).
    rewrite (Pos2Z.inj_xI p), Z.pow_add_r, Z.pow_twice_r by lia.
    replace (k * (2 ^ Z.pos p * 2 ^ Z.pos p * 2 ^ 1)) with (k * 2 * 2 ^ Zpos p * 2 ^ Zpos p) by lia.
    apply IH; [nia|]. apply IH; [lia|]. by apply enc_shr_1.
  - assert (0 < 2 ^ Zpos p) by (apply Z.pow_pos_nonneg; lia).
    rewrite (Pos2Z.inj_xO p), Z.pow_twice_r.
    replace (k * (2 ^ Z.pos p * 2 ^ Z.pos p)) with (k * 2 ^ Zpos p * 2 ^ Zpos p) by lia.
    apply IH; [nia|]. by apply IH.
  - by apply enc_shr_1.
Qed.

(** The rounded quotient. *)
Definition near (m0 k m : Z) : Prop :=
  2 * Z.abs (m * k - m0) <= k /\ (2 * Z.abs (m * k - m0) = k -> Z.even m = true).

Lemma enc_round m0 k r : 0 < k -> enc m0 k r ->
  let m := round_nearest_even (shr_m r) (loc_of_shr_record r) in
  near m0 k m /\ shr_m r <= m <= shr_m r + 1.
Proof.
  intros Hk (rem & -> & Hrem & Hq & Hr & Hs). destruct r as [q br bs].
  cbn [shr_m shr_r shr_s] in *. unfold near.
  destruct br, bs; cbn [loc_of_shr_record round_nearest_even].
  - replace ((q + 1) * k - (q * k + rem)) with (k - rem) by lia. lia.
  - destruct (Z.even q) eqn:Ev.
    + replace (q * k - (q * k + rem)) with (- rem) by lia. lia.
    + replace ((q + 1) * k - (q * k + rem)) with (k - rem) by lia.
      split; [|lia]. split; [lia|]. intros _. rewrite Z.even_add, Ev. done.
  - replace (q * k - (q * k + rem)) with (- rem) by lia. lia.
  - replace (q * k - (q * k + rem)) with (- rem) by lia. lia.
Qed.

Lemma near_min m0 k m j : 0 < k -> near m0 k m ->
  Z.abs (m * k - m0) <= Z.abs (j * k - m0) /\
  (Z.abs (m * k - m0) = Z.abs (j * k - m0) -> j <> m -> Z.even m = true).
Proof.
  intros Hk [H1 H2]. destruct (decide (j = m)) as [->|Hne]; [lia|].
  assert (Z.abs (j * k - m * k) >= k).
  { rewrite <-Z.mul_sub_distr_r, Z.abs_mul, (Z.abs_eq k) by lia. nia. }
  split; [lia|]. intros He _. apply H2. lia.
Qed.

(** ** Rounding *)

(** The end of [binary_round_aux]. *)
Definition finish (s : bool) (m K : Z) : spec_float :=
  if m <? 2 ^ 53 then
    if K <=? 2045 then S754_finite s (Z.to_pos m) (K - 1074) else S754_infinity s
  else if K + 1 <=? 2045 then S754_finite s (Z.to_pos (2 ^ 52)) (K - 1073) else S754_infinity s.

Lemma fexp_64 z : fexp f64_prec f64_emax z = Z.max (z - 53) (-1074).
Proof. reflexivity. Qed.

Lemma aux_end s m E : 2 ^ 52 <= m <= 2 ^ 53 \/ (E = -1074 /\ 0 < m <= 2 ^ 53) -> -1074 <= E ->
  (let '(mrs'', e'') := shr_fexp f64_prec f64_emax m E loc_Exact in
   match shr_m mrs'' with
   | Z0 => S754_zero s
   | Zpos m => if Zle_bool e'' (f64_emax - f64_prec) then S754_finite s m e'' else S754_infinity s
   | _ => S754_nan
   end) = finish s m (E + 1074).
Proof.
  intros Hm HE.
  assert (0 < m) by lia. destruct m as [|p|p]; try lia.
  unfold shr_fexp, finish. cbn [Zdigits2]. rewrite fexp_64.
  change (f64_emax - f64_prec) with 971.
  destruct (decide (Zpos p = 2 ^ 53)) as [E53|N53].
  - assert (Zpos (digits2_pos p) = 54) as -> by (apply digits_unique; rewrite E53; split; done).
    replace (Z.max (54 + E - 53) (-1074) - E) with 1 by lia. cbn [shr shr_record_of_loc].
    injection E53 as ->. cbn [SpecFloat.iter_pos shr_1 shr_m].
    change (Zpos (2 ^ 53) <? 2 ^ 53) with false. cbn [andb].
    replace (E + 1074 + 1 <=? 2045) with (E + 1 <=? 971) by lia.
    replace (E + 1074 - 1073) with (E + 1) by lia. done.
  - assert (Hd : Z.max (Zpos (digits2_pos p) + E - 53) (-1074) = E).
    { destruct Hm as [Hm|[-> Hm]].
      - assert (Zpos (digits2_pos p) = 53) as ->; [|lia].
        apply digits_unique. change (53 - 1) with 52. lia.
      - pose proof (digits_bounds p) as [Hd _].
        enough (Zpos (digits2_pos p) <= 53) by lia.
        assert (Zpos (digits2_pos p) - 1 < 53); [|lia]. apply (Z.pow_lt_mono_r_iff 2); lia. }
    rewrite Hd. replace (E - E) with 0 by lia. cbn [shr shr_record_of_loc shr_m].
    replace (Zpos p <? 2 ^ 53) with true by lia.
    replace (E + 1074 <=? 2045) with (E <=? 971) by lia.
    replace (E + 1074 - 1074) with E by lia. done.
Qed.

Lemma binary_round_core s p e : -1074 <= e ->
  exists K m, binary_round f64_prec f64_emax s p e = finish s m K /\ 0 <= K /\ 0 < m <= 2 ^ 53 /\
    (2 ^ 52 <= m \/ K = 0) /\ near (Zpos p * 2 ^ (e + 1074)) (2 ^ K) m /\
    (2 ^ 52 * 2 ^ K <= Zpos p * 2 ^ (e + 1074) \/ K = 0) /\
    Zpos p * 2 ^ (e + 1074) < 2 ^ 53 * 2 ^ K.
Proof.
  intros He. unfold binary_round. rewrite fexp_64.
  pose proof (digits_bounds p) as Hdp. set (d := Zpos (digits2_pos p)) in *.
  set (E := Z.max (d + e - 53) (-1074)).
  assert (0 < d) by (unfold d; lia).
  destruct (decide (E <= e)) as [HE|HE].
  - (* exact *)
    destruct (shl_align_val p e E HE) as [Hz1 Hz2].
    destruct (shl_align p e E) as [mz ez]. cbn [fst snd] in *. subst ez.
    assert (Hlt : Zpos mz < 2 ^ 53).
    { rewrite Hz1. apply Z.lt_le_trans with (2 ^ d * 2 ^ (e - E)).
      - apply Z.mul_lt_mono_pos_r; [apply Z.pow_pos_nonneg|]; lia.
      - rewrite <-Z.pow_add_r by lia. apply Z.pow_le_mono_r; unfold E; lia. }
    assert (Hge : 2 ^ 52 <= Zpos mz \/ E = -1074).
    { destruct (decide (E = -1074)); [by right|left]. rewrite Hz1.
      apply Z.le_trans with (2 ^ (d - 1) * 2 ^ (e - E)).
      - rewrite <-Z.pow_add_r by lia. apply Z.pow_le_mono_r; unfold E in *; lia.
      - apply Z.mul_le_mono_nonneg_r; [apply Z.pow_nonneg|]; lia. }
    assert (HE0 : -1074 <= E) by (unfold E; lia).
    assert (Hx : Zpos p * 2 ^ (e + 1074) = Zpos mz * 2 ^ (E + 1074)).
    { rewrite Hz1, <-Z.mul_assoc, <-Z.pow_add_r by lia. do 2 f_equal. lia. }
    assert (0 < 2 ^ (E + 1074)) by (apply Z.pow_pos_nonneg; lia).
    exists (E + 1074), (Zpos mz). rewrite Hx. split.
    2: { split_and!; try lia.
      - split; [lia|]. intros Habs. exfalso. lia.
      - destruct Hge as [Hge| ->]; [left; nia|right; lia].
      - nia. }
    unfold binary_round_aux.
    (* the first shift does nothing *)
    assert (Hs : shr_fexp f64_prec f64_emax (Zpos mz) E loc_Exact =
      (Build_shr_record (Zpos mz) false false, E)).
    { unfold shr_fexp. cbn [Zdigits2]. rewrite fexp_64.
      assert (Zpos (digits2_pos mz) = d + (e - E)) as ->.
      { apply digits_unique. rewrite Hz1.
        replace (d + (e - E) - 1) with ((d - 1) + (e - E)) by lia. rewrite !Z.pow_add_r by lia.
        assert (0 < 2 ^ (e - E)) by (apply Z.pow_pos_nonneg; lia). nia. }
      replace (d + (e - E) + E) with (d + e) by lia. fold E. rewrite Z.sub_diag. done. }
    rewrite Hs. cbn [shr_m loc_of_shr_record round_nearest_even].
    apply aux_end; [|done]. destruct Hge; [left|right]; lia.
  - (* shift to the right *)
    assert (HEd : E = d + e - 53) by (unfold E in *; lia).
    assert (Hsl : shl_align p e E = (p, e)).
    { unfold shl_align. destruct (E - e) eqn:?; [lia|done|lia]. }
    rewrite Hsl. unfold binary_round_aux.
    destruct (E - e) as [|n|n] eqn:En; try lia.
    assert (Hs : shr_fexp f64_prec f64_emax (Zpos p) e loc_Exact =
      (SpecFloat.iter_pos shr_1 n (Build_shr_record (Zpos p) false false), E)).
    { unfold shr_fexp. cbn [Zdigits2]. rewrite fexp_64. fold d. fold E. rewrite En. cbn [shr shr_record_of_loc].
      f_equal. lia. }
    rewrite Hs.
    pose proof (enc_iter (Zpos p) n 1 _ ltac:(lia) (enc_start (Zpos p) ltac:(lia))) as Henc.
    rewrite Z.mul_1_l in Henc.
    set (r := SpecFloat.iter_pos _ _ _) in *.
    assert (Hk : 0 < 2 ^ Zpos n) by (apply Z.pow_pos_nonneg; lia).
    destruct (enc_round _ _ _ Hk Henc) as [Hnear Hm]. set (m := round_nearest_even _ _) in *.
    assert (Hq : 2 ^ 52 <= shr_m r < 2 ^ 53).
    { destruct Henc as (rem & Hp & Hrem & Hq & _).
      assert (Hd1 : 2 ^ d = 2 ^ 53 * 2 ^ Zpos n) by (rewrite <-Z.pow_add_r by lia; f_equal; lia).
      assert (Hd2 : 2 ^ (d - 1) = 2 ^ 52 * 2 ^ Zpos n) by (rewrite <-Z.pow_add_r by lia; f_equal; lia).
      rewrite Hd1, Hd2 in Hdp. split.
      - assert (2 ^ 52 < shr_m r + 1); [|lia].
        apply (Z.mul_lt_mono_pos_r (2 ^ Zpos n)); lia.
      - apply (Z.mul_lt_mono_pos_r (2 ^ Zpos n)); lia. }
    assert (Hx : 2 ^ (e + 1074) * 2 ^ Zpos n = 2 ^ (E + 1074)) by (rewrite <-Z.pow_add_r by lia; f_equal; lia).
    assert (Hpe : 0 < 2 ^ (e + 1074)) by (apply Z.pow_pos_nonneg; lia).
    assert (Hbig : 2 ^ 52 * 2 ^ Zpos n <= Zpos p < 2 ^ 53 * 2 ^ Zpos n).
    { destruct Henc as (rem & Hp & Hrem & _). nia. }
    exists (E + 1074), m. split.
    { rewrite (aux_end s m E); [done| |lia]. left. lia. }
    split_and!; try lia.
    + rewrite <-Hx. destruct Hnear as [H1 H2]. 
      assert (Habs : Z.abs (m * (2 ^ (e + 1074) * 2 ^ Zpos n) - Zpos p * 2 ^ (e + 1074)) =
        Z.abs (m * 2 ^ Zpos n - Zpos p) * 2 ^ (e + 1074)).
      { rewrite <-(Z.abs_eq (2 ^ (e + 1074))) at 3 by lia. rewrite <-Z.abs_mul. f_equal. lia. }
      split; rewrite Habs; [nia|]. intros Heq. apply H2. nia.
    + left. rewrite <-Hx. nia.
    + rewrite <-Hx. nia.
Qed.

(** ** The fields *)

Lemma fields_of (s : bool) (ef fr : N) : (fr < 2 ^ 52)%N -> (ef < 2 ^ 11)%N ->
  let n := ((if s then 2 ^ 63 else 0) + ef * 2 ^ 52 + fr)%N in
  fraction n = fr /\ exponent n = ef /\ negative n = s /\ N.even n = N.even fr.
Proof.
  intros Hf He n. set (b := (if s then 1 else 0)%N).
  assert (Hn : n = (fr + (b * 2 ^ 11 + ef) * 2 ^ 52)%N).
  { unfold n, b. destruct s; change (2 ^ 63)%N with (2 ^ 11 * 2 ^ 52)%N; lia. }
  clearbody n. subst n.
  assert (Hd : ((fr + (b * 2 ^ 11 + ef) * 2 ^ 52) / 2 ^ 52 = b * 2 ^ 11 + ef)%N).
  { rewrite N.div_add by done. rewrite N.div_small by done. done. }
  split_and!.
  - unfold fraction. rewrite N.mod_add by done. by apply N.mod_small.
  - unfold exponent. rewrite Hd, N.add_comm, N.mod_add by done. by apply N.mod_small.
  - unfold negative. rewrite N.testbit_eqb. change (2 ^ 63)%N with (2 ^ 52 * 2 ^ 11)%N.
    rewrite <-N.div_div by done. rewrite Hd, N.add_comm, N.div_add by done.
    rewrite N.div_small by done. unfold b. by destruct s.
  - rewrite N.even_add. replace (N.even ((b * 2 ^ 11 + ef) * 2 ^ 52)) with true; [by destruct (N.even fr)|].
    rewrite N.even_mul. change (N.even (2 ^ 52)) with true. by rewrite orb_true_r.
Qed.

(** Floats as the decoder produces them. *)
Definition canon (p : positive) (e : Z) : Prop :=
  Zpos p < 2 ^ 53 /\ -1074 <= e <= 971 /\ (2 ^ 52 <= Zpos p \/ e = -1074).

Definition value (f : spec_float) : Z :=
  match f with
  | S754_finite s p e => if s then - (Zpos p * 2 ^ (e + 1074)) else Zpos p * 2 ^ (e + 1074)
  | _ => 0
  end.

Lemma two52_pow : two52 = (2 ^ 52)%N. Proof. reflexivity. Qed.
Lemma sign_bit_pow s : sign_bit s = (if s then 2 ^ 63 else 0)%N. Proof. by destruct s. Qed.

(** Writing. *)
Lemma bits_of_finite s p e : canon p e ->
  let n := f64_to_bits (S754_finite s p e) in
  number n /\ units n = value (S754_finite s p e) /\ N.even n = Z.even (Zpos p) /\ negative n = s.
Proof.
  intros (Hp & He & Hc). cbn [f64_to_bits value]. rewrite two52_pow, sign_bit_pow.
  assert (Hev : forall q, N.even (N.pos q) = Z.even (Z.pos q)) by (by intros [q|q|]).
  destruct (Npos p <? 2 ^ 52)%N eqn:Hlt.
  - assert (e = -1074) as -> by lia.
    destruct (fields_of s 0 (Npos p)) as (F1 & F2 & F3 & F4); [lia|done|].
    rewrite N.mul_0_l, N.add_0_r in F1, F2, F3, F4. cbv zeta.
    unfold number, units, magnitude. rewrite F1, F2, F3, F4. cbn [N.eqb].
    change (2 ^ (-1074 + 1074)) with 1. split_and!; [done|destruct s; lia|apply Hev|done].
  - destruct (fields_of s (Z.to_N (e + 1075)) (Npos p - 2 ^ 52)) as (F1 & F2 & F3 & F4); [lia|lia|].
    cbv zeta. unfold number, units, magnitude. rewrite F1, F2, F3, F4.
    replace (Z.to_N (e + 1075) =? 0)%N with false by lia.
    replace (Z.of_N (Z.to_N (e + 1075)) - 1) with (e + 1074) by lia.
    replace (2 ^ 52 + Z.of_N (N.pos p - 2 ^ 52)) with (Zpos p) by lia.
    split_and!; [lia|by destruct s| |done].
    rewrite N.even_sub by lia. change (N.even (2 ^ 52)) with true. rewrite Hev. by destruct (Z.even _).
Qed.

Lemma bits_of_zero s : f64_to_bits (S754_zero s) = zero s.
Proof. by destruct s. Qed.
Lemma bits_of_infinity s : f64_to_bits (S754_infinity s) = infinity s.
Proof. by destruct s. Qed.
Lemma bits_of_nan : nan (f64_to_bits S754_nan).
Proof. split; [by vm_compute|]. by vm_compute. Qed.
Lemma zero_number s : number (zero s) /\ units (zero s) = 0.
Proof. destruct s; split; by vm_compute. Qed.

(** Reading. *)
Lemma of_bits_number n : number n ->
  units n = value (f64_of_bits n) /\
  match f64_of_bits n with
  | S754_zero s => s = negative n
  | S754_finite s p e => s = negative n /\ canon p e
  | _ => False
  end.
Proof.
  unfold number, units, magnitude, f64_of_bits. fold (negative n).
  change ((n / two52) mod 2048)%N with (exponent n). change (n mod two52)%N with (fraction n).
  intros Hn.
  assert (Hf : (fraction n < 2 ^ 52)%N) by (apply N.mod_lt; done).
  assert (He : (exponent n < 2 ^ 11)%N) by (apply N.mod_lt; done).
  destruct (exponent n =? 2047)%N eqn:E1; [lia|].
  destruct (exponent n =? 0)%N eqn:E2.
  - destruct (fraction n) as [|p]; cbn [value].
    + by destruct (negative n).
    + change (2 ^ (-1074 + 1074)) with 1. split; [destruct (negative n); lia|].
      split; [done|]. split_and!; lia.
  - rewrite two52_pow. destruct (fraction n + 2 ^ 52)%N as [|p] eqn:Ep; [lia|]. cbn [value].
    replace (2 ^ 52 + Z.of_N (fraction n)) with (Zpos p) by lia.
    replace (Z.of_N (exponent n) - 1075 + 1074) with (Z.of_N (exponent n) - 1) by lia.
    split; [done|]. split; [done|]. split_and!; lia.
Qed.

Lemma of_bits_infinity n s : f64_of_bits n = S754_infinity s <->
  exponent n = 2047%N /\ fraction n = 0%N /\ negative n = s.
Proof.
  unfold f64_of_bits. fold (negative n).
  change ((n / two52) mod 2048)%N with (exponent n). change (n mod two52)%N with (fraction n).
  destruct (exponent n =? 2047)%N eqn:E1.
  - destruct (fraction n =? 0)%N eqn:E2.
    + split; [intros [= ->]; split_and!; try lia; done|]. by intros (_ & _ & ->).
    + split; [done|]. intros (_ & ? & _). lia.
  - split; [|intros (? & _); lia].
    destruct (exponent n =? 0)%N; [by destruct (fraction n)|by destruct (_ + _)%N].
Qed.

Lemma of_bits_nan n : f64_of_bits n = S754_nan <-> nan n.
Proof.
  unfold f64_of_bits, nan. fold (negative n).
  change ((n / two52) mod 2048)%N with (exponent n). change (n mod two52)%N with (fraction n).
  destruct (exponent n =? 2047)%N eqn:E1.
  - destruct (fraction n =? 0)%N eqn:E2.
    + split; [done|]. intros (_ & ?). lia.
    + split; [|done]. intros _. split; lia.
  - split; [|intros (? & _); lia].
    destruct (exponent n =? 0)%N; [by destruct (fraction n)|by destruct (_ + _)%N].
Qed.

(** A number is a multiple of a power of two, by less than 2^53. *)
Lemma units_shape n : number n ->
  exists m K, 0 <= m < 2 ^ 53 /\ 0 <= K /\ (units n = m * 2 ^ K \/ units n = - (m * 2 ^ K)).
Proof.
  intros Hn. destruct (of_bits_number n Hn) as [-> H].
  destruct (f64_of_bits n) as [s| | |s p e]; try done.
  - exists 0, 0. cbn. lia.
  - destruct H as [_ (? & ? & _)]. exists (Zpos p), (e + 1074). cbn [value]. destruct s; lia.
Qed.

(** ** The rounded number is the nearest one *)

Lemma core_min X K m n : 0 <= K -> 0 < X -> (2 ^ 52 * 2 ^ K <= X \/ K = 0) -> near X (2 ^ K) m ->
  (exists q Kq, 0 <= q < 2 ^ 53 /\ 0 <= Kq /\ (n = q * 2 ^ Kq \/ n = - (q * 2 ^ Kq))) ->
  Z.abs (m * 2 ^ K - X) <= Z.abs (n - X) /\
  (Z.abs (m * 2 ^ K - X) = Z.abs (n - X) -> n <> m * 2 ^ K -> Z.even m = true).
Proof.
  intros HK HX Hbig Hnear (q & Kq & Hq & HKq & Hn).
  assert (Hk : 0 < 2 ^ K) by (apply Z.pow_pos_nonneg; lia).
  destruct (Z.neg_nonneg_cases n) as [Hneg|Hpos].
  { destruct (near_min X _ m 0 Hk Hnear) as [H0 _]. rewrite Z.mul_0_l in H0. lia. }
  assert (Hn' : n = q * 2 ^ Kq).
  { destruct Hn; [done|]. assert (0 <= q * 2 ^ Kq) by (apply Z.mul_nonneg_nonneg; [lia|apply Z.pow_nonneg; lia]). lia. }
  assert (Hcase : n < 2 ^ 52 * 2 ^ K <= X \/ K <= Kq).
  { destruct Hbig as [Hbig| ->]; [|by right].
    destruct (Z.lt_ge_cases n (2 ^ 52 * 2 ^ K)) as [|Hge]; [left; lia|right].
    assert (Hlt : 2 ^ (52 + K) < 2 ^ (53 + Kq)).
    { rewrite !Z.pow_add_r by lia. assert (0 < 2 ^ Kq) by (apply Z.pow_pos_nonneg; lia). nia. }
    apply Z.pow_lt_mono_r_iff in Hlt; lia. }
  destruct Hcase as [Hc|Hc].
  - destruct (near_min X _ m (2 ^ 52) Hk Hnear) as [H0 _]. lia.
  - assert (n = q * 2 ^ (Kq - K) * 2 ^ K) as Hnk.
    { rewrite <-Z.mul_assoc, <-Z.pow_add_r by lia. rewrite Hn'. do 2 f_equal. lia. }
    destruct (near_min X _ m (q * 2 ^ (Kq - K)) Hk Hnear) as [H1 H2].
    rewrite <-Hnk in H1, H2. split; [done|]. intros Heq Hne. apply H2; [done|].
    intros <-. by apply Hne.
Qed.

Lemma overflow_eq : overflow = 2 ^ 2044 * (2 ^ 54 - 1). Proof. by vm_compute. Qed.

Lemma finish_cases s X K m :
  0 <= K -> 0 < m <= 2 ^ 53 -> (2 ^ 52 <= m \/ K = 0) -> near X (2 ^ K) m ->
  (2 ^ 52 * 2 ^ K <= X \/ K = 0) -> X < 2 ^ 53 * 2 ^ K ->
  (X < overflow /\ exists p e, finish s m K = S754_finite s p e /\ canon p e /\
     Zpos p * 2 ^ (e + 1074) = m * 2 ^ K /\ (Z.even m = true -> Z.even (Zpos p) = true)) \/
  (overflow <= X /\ finish s m K = S754_infinity s).
Proof.
  intros HK Hm Hm2 [Hn1 Hn2] Hbig Hup. unfold finish. rewrite overflow_eq.
  assert (HT : 0 < 2 ^ 2044) by (by vm_compute).
  assert (H45 : 2 ^ 2045 = 2 * 2 ^ 2044) by (by vm_compute).
  assert (H46 : 2 ^ 2046 = 4 * 2 ^ 2044) by (by vm_compute).
  assert (Hk : 0 < 2 ^ K) by (apply Z.pow_pos_nonneg; lia).
  assert (Hk45 : K <= 2045 -> 2 ^ K <= 2 ^ 2045) by (intros; apply Z.pow_le_mono_r; lia).
  assert (Hk44 : K <= 2044 -> 2 ^ K <= 2 ^ 2044) by (intros; apply Z.pow_le_mono_r; lia).
  assert (Hk45' : 2045 <= K -> 2 ^ 2045 <= 2 ^ K) by (intros; apply Z.pow_le_mono_r; lia).
  assert (Hk46 : 2046 <= K -> 2 ^ 2046 <= 2 ^ K) by (intros; apply Z.pow_le_mono_r; lia).
  assert (Hcong : m * 2 ^ K = m * 2 ^ K) by done.
  rewrite H45 in *. rewrite H46 in *. set (T := 2 ^ 2044) in *. clearbody T.
  set (P := 2 ^ K) in *.
  destruct (m <? 2 ^ 53) eqn:E1.
  - destruct (K <=? 2045) eqn:E2.
    + left. split.
      * specialize (Hk45 ltac:(lia)). clear Hk44 Hk45' Hk46.
        assert (m <= 2 ^ 53 - 1) by lia.
        destruct (Z.eq_dec m (2 ^ 53 - 1)) as [->|Hne].
        -- assert (2 * Z.abs ((2 ^ 53 - 1) * P - X) <> P) by (intros H'; specialize (Hn2 H'); done).
           lia.
        -- assert (m * P <= (2 ^ 53 - 2) * P) by (apply Z.mul_le_mono_nonneg_r; lia). lia.
      * exists (Z.to_pos m), (K - 1074). split; [done|]. split_and!.
        -- split_and!; lia.
        -- rewrite Z2Pos.id by lia. subst P. do 2 f_equal. lia.
        -- by rewrite Z2Pos.id by lia.
    + right. split; [|done]. specialize (Hk46 ltac:(lia)). lia.
  - assert (m = 2 ^ 53) as -> by lia. destruct (K + 1 <=? 2045) eqn:E2.
    + left. split; [specialize (Hk44 ltac:(lia)); lia|].
      exists (Z.to_pos (2 ^ 52)), (K - 1073). split; [done|]. split_and!.
      * split_and!; [done|lia..].
      * replace (K - 1073 + 1074) with (K + 1) by lia. rewrite Z.pow_add_r by lia. subst P.
        rewrite Z2Pos.id by done. change (2 ^ 53) with (2 ^ 52 * 2 ^ 1). lia.
      * done.
    + right. split; [|done]. specialize (Hk45' ltac:(lia)). lia.
Qed.

Lemma binary_round_rounds (s : bool) p e : -1074 <= e ->
  let X := Zpos p * 2 ^ (e + 1074) in
  rounds_to (if s then - X else X) (f64_to_bits (binary_round f64_prec f64_emax s p e)).
Proof.
  intros He X. destruct (binary_round_core s p e He) as (K & m & -> & HK & Hm & Hm2 & Hnear & Hbig & Hup).
  fold X in Hnear, Hbig, Hup.
  assert (HX : 0 < X) by (apply Z.mul_pos_pos; [lia|apply Z.pow_pos_nonneg; lia]).
  assert (Habs : Z.abs (if s then - X else X) = X) by (destruct s; lia).
  destruct (finish_cases s X K m HK Hm Hm2 Hnear Hbig Hup) as [(Hlt & q & f & -> & Hc & Hv & Hev)|(Hge & ->)].
  - split; rewrite Habs; [|lia]. intros _.
    destruct (bits_of_finite s q f Hc) as (B1 & B2 & B3 & _).
    split; [done|]. intros g Hg. rewrite B2, B3. cbn [value]. rewrite Hv.
    destruct (units_shape g Hg) as (mg & Kg & S1 & S2 & S3).
    destruct s.
    + destruct (core_min X K m (- units g) HK HX Hbig Hnear) as [M1 M2].
      { exists mg, Kg. split_and!; lia. }
      replace (Z.abs (- (m * 2 ^ K) - - X)) with (Z.abs (m * 2 ^ K - X)) by lia.
      replace (Z.abs (units g - - X)) with (Z.abs (- units g - X)) by lia.
      split; [done|]. intros E1 E2. apply Hev, M2; [done|lia].
    + destruct (core_min X K m (units g) HK HX Hbig Hnear) as [M1 M2]; [by exists mg, Kg|].
      split; [done|]. intros E1 E2. apply Hev, M2; done.
  - split; rewrite Habs; [lia|]. intros _. rewrite bits_of_infinity. f_equal. destruct s; lia.
Qed.

(** ** Addition *)

Lemma canon_small p e : canon p e -> Zpos p * 2 ^ (e + 1074) < overflow.
Proof.
  intros (H1 & H2 & _). rewrite overflow_eq.
  assert (H45 : 2 ^ 2045 = 2 * 2 ^ 2044) by (by vm_compute).
  assert (HT : 0 < 2 ^ 2044) by (by vm_compute).
  assert (2 ^ (e + 1074) <= 2 ^ 2045) by (apply Z.pow_le_mono_r; lia).
  assert (0 < 2 ^ (e + 1074)) by (apply Z.pow_pos_nonneg; lia).
  rewrite H45 in *. set (T := 2 ^ 2044) in *. clearbody T.
  set (P := 2 ^ (e + 1074)) in *. clearbody P.
  assert (Zpos p * P <= (2 ^ 53 - 1) * P) by (apply Z.mul_le_mono_nonneg_r; lia). lia.
Qed.

Lemma exact_nearest x r : number r -> units r = x -> nearest x r.
Proof. intros H <-. split; [done|]. intros g Hg. lia. Qed.

Lemma finite_exact s p e : canon p e ->
  rounds_to (value (S754_finite s p e)) (f64_to_bits (S754_finite s p e)).
Proof.
  intros H. pose proof (canon_small p e H). destruct (bits_of_finite s p e H) as (B1 & B2 & _).
  assert (0 < Zpos p * 2 ^ (e + 1074)) by (apply Z.mul_pos_pos; [lia|]; apply Z.pow_pos_nonneg; destruct H; lia).
  split; [intros _; by apply exact_nearest|]. cbn [value]. destruct s; lia.
Qed.

Lemma zero_exact s : rounds_to 0 (f64_to_bits (S754_zero s)).
Proof.
  rewrite bits_of_zero. split; [intros _; apply exact_nearest; apply zero_number|].
  intros H. by vm_compute in H.
Qed.

Lemma normalize_rounds m e s : -1074 <= e ->
  rounds_to (m * 2 ^ (e + 1074)) (f64_to_bits (binary_normalize f64_prec f64_emax m e s)).
Proof.
  intros He. destruct m as [|p|p]; cbn [binary_normalize].
  - rewrite Z.mul_0_l. apply zero_exact.
  - exact (binary_round_rounds false p e He).
  - pose proof (binary_round_rounds true p e He) as H. cbv zeta in H.
    replace (Zneg p * 2 ^ (e + 1074)) with (- (Zpos p * 2 ^ (e + 1074))) by lia. done.
Qed.

Lemma aligned s p e e' : -1074 <= e' <= e ->
  cond_Zopp s (Zpos (fst (shl_align p e e'))) * 2 ^ (e' + 1074) = value (S754_finite s p e).
Proof.
  intros H. destruct (shl_align_val p e e') as [Hv _]; [lia|].
  assert (Hx : Zpos (fst (shl_align p e e')) * 2 ^ (e' + 1074) = Zpos p * 2 ^ (e + 1074)).
  { rewrite Hv, <-Z.mul_assoc, <-Z.pow_add_r by lia. do 2 f_equal. lia. }
  cbn [value]. destruct s; cbn [cond_Zopp]; lia.
Qed.

Lemma add_rounds a b : number a -> number b -> rounds_to (units a + units b) (f64_add a b).
Proof.
  intros Ha Hb. unfold f64_add.
  destruct (of_bits_number a Ha) as [-> Ca]. destruct (of_bits_number b Hb) as [-> Cb].
  destruct (f64_of_bits a) as [sa|sa| |sa pa ea]; try done;
    destruct (f64_of_bits b) as [sb|sb| |sb pb eb]; try done; cbn [SFadd].
  - change (value (S754_zero sa) + value (S754_zero sb)) with 0. destruct (Bool.eqb sa sb); apply zero_exact.
  - change (value (S754_zero sa)) with 0. rewrite Z.add_0_l. apply finite_exact, Cb.
  - change (value (S754_zero sb)) with 0. rewrite Z.add_0_r. apply finite_exact, Ca.
  - destruct Ca as [_ Ca], Cb as [_ Cb]. pose proof Ca as (_ & ? & _). pose proof Cb as (_ & ? & _).
    rewrite <-(aligned sa pa ea (Z.min ea eb)), <-(aligned sb pb eb (Z.min ea eb)) by lia.
    rewrite <-Z.mul_add_distr_r. apply normalize_rounds. lia.
Qed.

Lemma add_zero a b : number a -> number b -> units a + units b = 0 ->
  f64_add a b = zero (negative a && negative b).
Proof.
  intros Ha Hb. unfold f64_add.
  destruct (of_bits_number a Ha) as [-> Ca]. destruct (of_bits_number b Hb) as [-> Cb].
  assert (Hpos : forall p e, canon p e -> 0 < Zpos p * 2 ^ (e + 1074)).
  { intros p e (_ & H & _). apply Z.mul_pos_pos; [lia|]. apply Z.pow_pos_nonneg; lia. }
  destruct (f64_of_bits a) as [sa|sa| |sa pa ea]; try done;
    destruct (f64_of_bits b) as [sb|sb| |sb pb eb]; try done; cbn [SFadd].
  - intros _. subst. by destruct (negative a), (negative b).
  - destruct Cb as [_ Cb]. pose proof (Hpos _ _ Cb). cbn [value]. destruct sb; lia.
  - destruct Ca as [_ Ca]. pose proof (Hpos _ _ Ca). cbn [value]. destruct sa; lia.
  - destruct Ca as [-> Ca], Cb as [-> Cb]. pose proof (Hpos _ _ Ca). pose proof (Hpos _ _ Cb).
    pose proof Ca as (_ & ? & _). pose proof Cb as (_ & ? & _).
    intros Hz. assert (Hsg : (negative a && negative b) = false).
    { cbn [value] in Hz. destruct (negative a), (negative b); try done; lia. }
    rewrite <-(aligned _ pa ea (Z.min ea eb)), <-(aligned _ pb eb (Z.min ea eb)) in Hz by lia.
    rewrite <-Z.mul_add_distr_r in Hz. apply Z.mul_eq_0_l in Hz; [|apply Z.pow_nonzero; lia].
    rewrite Hz, Hsg. cbn [binary_normalize]. apply bits_of_zero.
Qed.

Lemma infinity_of_bits s : f64_of_bits (infinity s) = S754_infinity s.
Proof. by destruct s. Qed.

(** Every bit pattern is a number, an infinity or a NaN. *)
Lemma add_special a b :
  (nan a \/ nan b -> nan (f64_add a b)) /\
  (forall s, number b -> f64_add (infinity s) b = infinity s) /\
  (forall s, number a -> f64_add a (infinity s) = infinity s) /\
  (forall s, f64_add (infinity s) (infinity s) = infinity s) /\
  (forall s, nan (f64_add (infinity s) (infinity (negb s)))).
Proof.
  split_and!.
  - intros [H|H]; apply of_bits_nan in H; unfold f64_add; rewrite H; [apply bits_of_nan|].
    destruct (f64_of_bits a); apply bits_of_nan.
  - intros s Hb. unfold f64_add. rewrite infinity_of_bits. destruct (of_bits_number b Hb) as [_ C].
    destruct (f64_of_bits b); try done; cbn [SFadd]; apply bits_of_infinity.
  - intros s Ha. unfold f64_add. rewrite infinity_of_bits. destruct (of_bits_number a Ha) as [_ C].
    destruct (f64_of_bits a); try done; cbn [SFadd]; apply bits_of_infinity.
  - intros s. unfold f64_add. rewrite infinity_of_bits. by destruct s.
  - intros s. unfold f64_add. rewrite !infinity_of_bits. destruct s; exact bits_of_nan.
Qed.
