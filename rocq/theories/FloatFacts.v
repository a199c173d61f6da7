(** A float sum is a 64-bit pattern. *)
From stdpp Require Import base tactics.
From Verif Require Import Bytes Float64.
From Coq Require Import ZArith NArith Floats.SpecFloat Lia.
From Coq Require Import ZifyBool ZifyNat ZifyN.

(** A mantissa of at most 53 bits and an exponent that fits. *)
Definition sf_fits (f : spec_float) : Prop :=
  match f with
  | S754_finite _ p e => (Npos p < 2 * two52)%N /\ (e <= 971)%Z
  | _ => True
  end.

Lemma f64_of_bits_fits n : sf_fits (f64_of_bits n).
Proof.
  unfold f64_of_bits.
  assert (Hm : (n mod two52 < two52)%N) by (apply N.mod_lt; done).
  assert (He : ((n / two52) mod 2048 < 2048)%N) by (apply N.mod_lt; done).
  destruct (_ =? 2047)%N eqn:E1; [destruct (_ =? 0)%N; exact I|].
  destruct (_ =? 0)%N eqn:E2.
  - destruct (n mod two52)%N; [exact I|]. cbn. unfold two52 in *. lia.
  - destruct (n mod two52 + two52)%N eqn:E3; [exact I|]. cbn. unfold two52 in *. lia.
Qed.

Lemma f64_to_bits_lt f : sf_fits f -> (f64_to_bits f < u64_mod)%N.
Proof.
  destruct f as [s|s| |s p e]; unfold f64_to_bits, sf_fits, sign_bit, u64_mod, two63, two52.
  - intros _. destruct s; lia.
  - intros _. destruct s; lia.
  - intros _. lia.
  - intros [Hp He]. destruct (_ <? _)%N eqn:E.
    + destruct s; lia.
    + assert (Z.to_N (e + 1075) <= 2046)%N by lia.
      generalize dependent (Z.to_N (e + 1075)). intros n Hn. destruct s; lia.
Qed.

(** Shifting right. *)
Lemma shr_1_m mrs : (0 <= shr_m mrs)%Z ->
  (0 <= shr_m (shr_1 mrs))%Z /\ (2 * shr_m (shr_1 mrs) <= shr_m mrs)%Z.
Proof. destruct mrs as [m r s]. destruct m as [|[p|p|]|p]; cbn; lia. Qed.

Lemma iter_shr p : forall mrs, (0 <= shr_m mrs)%Z ->
  (0 <= shr_m (SpecFloat.iter_pos shr_1 p mrs))%Z /\
  (2 ^ Zpos p * shr_m (SpecFloat.iter_pos shr_1 p mrs) <= shr_m mrs)%Z.
Proof.
  induction p as [p IH|p IH|]; intros mrs H; cbn.
  - destruct (shr_1_m mrs H) as [H1 H1'].
    destruct (IH _ H1) as [H2 H2']. destruct (IH _ H2) as [H3 H3'].
    split; [done|]. rewrite (Pos2Z.inj_xI p), Z.pow_add_r, Z.pow_twice_r by lia.
    set (a := (2 ^ Zpos p)%Z) in *. assert (0 < a)%Z by (apply Z.pow_pos_nonneg; lia). nia.
  - destruct (IH _ H) as [H2 H2']. destruct (IH _ H2) as [H3 H3'].
    split; [done|]. rewrite (Pos2Z.inj_xO p), Z.pow_twice_r.
    set (a := (2 ^ Zpos p)%Z) in *. assert (0 < a)%Z by (apply Z.pow_pos_nonneg; lia). nia.
  - destruct (shr_1_m mrs H) as [H1 H1']. change (2 ^ 1)%Z with 2%Z. lia.
Qed.

Lemma digits_lt p : (Zpos p < 2 ^ Zpos (digits2_pos p))%Z.
Proof.
  induction p as [p IH|p IH|]; cbn [digits2_pos].
  - rewrite Pos2Z.inj_succ, Z.pow_succ_r by lia. lia.
  - rewrite Pos2Z.inj_succ, Z.pow_succ_r by lia. lia.
  - reflexivity.
Qed.

(** After [shr_fexp] at most 53 bits are left. *)
Lemma shr_fexp_fits m e l :
  (0 <= m)%Z ->
  let '(mrs, _) := shr_fexp f64_prec f64_emax m e l in
  (0 <= shr_m mrs < 2 ^ 53)%Z.
Proof.
  intros Hm. unfold shr_fexp, fexp, shr.
  assert (Hloc : forall l, shr_m (shr_record_of_loc m l) = m) by (by intros [|[]]).
  assert (Hdig : (m < 2 ^ Zdigits2 m)%Z).
  { destruct m as [|p|p]; cbn; [lia|apply digits_lt|lia]. }
  set (n := (Z.max _ _ - e)%Z).
  assert (Hn : (Zdigits2 m - 53 <= n)%Z) by (unfold n, f64_prec; lia).
  assert (Hd0 : (0 <= Zdigits2 m)%Z) by (by destruct m).
  destruct n as [|p|p].
  - rewrite Hloc. split; [done|].
    eapply Z.lt_le_trans; [exact Hdig|]. apply Z.pow_le_mono_r; lia.
  - destruct (iter_shr p (shr_record_of_loc m l)) as [H1 H2]; [by rewrite Hloc|].
    split; [done|]. rewrite Hloc in H2.
    assert (Ha : (0 < 2 ^ Zpos p)%Z) by (apply Z.pow_pos_nonneg; lia).
    assert (Hb : (2 ^ Zdigits2 m <= 2 ^ Zpos p * 2 ^ 53)%Z).
    { rewrite <-Z.pow_add_r by lia. apply Z.pow_le_mono_r; lia. }
    nia.
  - rewrite Hloc. split; [done|].
    eapply Z.lt_le_trans; [exact Hdig|]. apply Z.pow_le_mono_r; lia.
Qed.

Lemma round_nearest_even_nonneg m l : (0 <= m)%Z -> (0 <= round_nearest_even m l)%Z.
Proof. destruct l as [|[]]; cbn; try lia. destruct (Z.even m); lia. Qed.

Lemma binary_round_aux_fits s m e l :
  (0 <= m)%Z -> sf_fits (binary_round_aux f64_prec f64_emax s m e l).
Proof.
  intros Hm. unfold binary_round_aux.
  pose proof (shr_fexp_fits m e l Hm) as H1.
  destruct (shr_fexp f64_prec f64_emax m e l) as [mrs e'].
  set (m2 := round_nearest_even _ _).
  assert (Hm2 : (0 <= m2)%Z) by (apply round_nearest_even_nonneg, H1).
  pose proof (shr_fexp_fits m2 e' loc_Exact Hm2) as H2.
  destruct (shr_fexp f64_prec f64_emax m2 e' loc_Exact) as [mrs2 e2].
  destruct (shr_m mrs2) as [|p|p]; [exact I| |exact I].
  change (f64_emax - f64_prec)%Z with 971%Z.
  destruct (e2 <=? 971)%Z eqn:E; [|exact I]. unfold sf_fits, two52.
  change (2 ^ 53)%Z with 9007199254740992%Z in H2. lia.
Qed.

Lemma binary_normalize_fits m e s :
  sf_fits (binary_normalize f64_prec f64_emax m e s).
Proof.
  destruct m as [|p|p]; cbn; [exact I| |]; unfold binary_round;
    destruct (shl_align _ _ _); by apply binary_round_aux_fits.
Qed.

Lemma SFadd_fits x y : sf_fits x -> sf_fits y -> sf_fits (SFadd f64_prec f64_emax x y).
Proof.
  intros Hx Hy. destruct x as [sx|sx| |sx px ex], y as [sy|sy| |sy py ey]; unfold SFadd;
    try (destruct (Bool.eqb sx sy)); try exact I; try exact Hx; try exact Hy;
    apply binary_normalize_fits.
Qed.

Lemma SFsub_fits x y : sf_fits x -> sf_fits y -> sf_fits (SFsub f64_prec f64_emax x y).
Proof.
  intros Hx Hy. destruct x as [sx|sx| |sx px ex], y as [sy|sy| |sy py ey]; unfold SFsub;
    try (destruct (Bool.eqb sx _)); try exact I; try exact Hx; try exact Hy;
    apply binary_normalize_fits.
Qed.

Lemma f64_add_lt a b : (f64_add a b < u64_mod)%N.
Proof. apply f64_to_bits_lt, SFadd_fits; apply f64_of_bits_fits. Qed.

Lemma f64_sub_lt a b : (f64_sub a b < u64_mod)%N.
Proof. apply f64_to_bits_lt, SFsub_fits; apply f64_of_bits_fits. Qed.
