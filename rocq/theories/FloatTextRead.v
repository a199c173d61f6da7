(** Exactly the decimal texts are read, as the closest float (C113). *)
From Coq Require Import String.
From Verif Require Import Bytes BytesFacts Utf8 CommandId Cli CliSpec CliFacts FloatSpec FloatRound FloatUnique FloatText
  FloatTextSpec FloatTextFacts.
From stdpp Require Import list.
From Coq Require Import NArith ZArith Lia ZifyBool ZifyNat ZifyN.
From Coq.Init Require Import Byte.
Local Open Scope Z_scope.

(** ** Digits *)

Definition is_digit (b : byte) : Prop := exists d, digit b = Some d.

Lemma digits_value_snoc ds b d : digit b = Some d -> digits_value (ds ++ [b]) = 10 * digits_value ds + d.
Proof.
  intros Hd. unfold digits_value. rewrite fold_left_app. cbn. unfold digit in Hd.
  destruct (Utf8.in_range 48 57 b); [|done]. by injection Hd as <-.
Qed.

Lemma digits_iff ds n : digits ds n <-> Forall is_digit ds /\ n = digits_value ds.
Proof.
  split.
  - induction 1 as [|ds n d H [IH ->] Hd]; [done|]. pose proof (digit_n2b d Hd) as E. split.
    + apply Forall_app. split; [done|]. constructor; [by exists d|done].
    + by rewrite (digits_value_snoc _ _ d E).
  - intros [H ->]. induction ds as [|b ds IH] using rev_ind; [constructor|].
    apply Forall_app in H as [H Hb]. apply Forall_cons in Hb as [[d Hd] _].
    rewrite (digits_value_snoc _ _ d Hd). apply n2b_digit in Hd as [Hd ->]. constructor; [by apply IH|done].
Qed.

Lemma digits_value_nonneg ds : Forall is_digit ds -> 0 <= digits_value ds.
Proof. intros H. by apply (digits_nonneg ds), digits_iff. Qed.

(** What is next is not a digit. *)
Definition stops (r : bytes) : Prop := forall b r', r = b :: r' -> digit b = None.

Lemma span_spec s ds r : span_digits s = (ds, r) -> s = ds ++ r /\ Forall is_digit ds /\ stops r.
Proof.
  revert ds r. induction s as [|b s IH]; intros ds r; cbn.
  - intros [= <- <-]. split_and!; [done..|]. by intros ? ? [=].
  - destruct (digit b) as [d|] eqn:Hd.
    + destruct (span_digits s) as [ds' r'] eqn:E. intros [= <- <-].
      destruct (IH _ _ eq_refl) as (-> & H & Hs). split_and!; [done| |done]. constructor; [by exists d|done].
    + intros [= <- <-]. split_and!; [done..|]. intros ? ? [= <- <-]. done.
Qed.

Lemma span_app ds r : Forall is_digit ds -> stops r -> span_digits (ds ++ r) = (ds, r).
Proof.
  intros H Hr. induction H as [|b ds [d Hd] H IH]; cbn.
  - destruct r as [|b r]; [done|]. cbn. by rewrite (Hr b r eq_refl).
  - by rewrite Hd, IH.
Qed.

(** ** Exponents *)

Lemma take_sign_cases s : exists neg r, take_sign s = (neg, r) /\ signed_text s neg r /\
  (neg = false /\ s = r \/ hd_error s = Some x2b \/ hd_error s = Some x2d).
Proof.
  destruct s as [|b r]; [exists false, []; split_and!; [done|by left|by left]|]. cbn.
  destruct (decide (b = x2d)) as [->|H1]; [|destruct (decide (b = x2b)) as [->|H2]].
  - exists true, r. split_and!; [done|by right; right|by right; right].
  - exists false, r. split_and!; [done|by right; left|by right; left].
  - exists false, (b :: r). split_and!; [done|by left|by left].
Qed.

Lemma take_sign_of s neg r : signed_text s neg r -> (forall b r', r = b :: r' -> b <> x2b /\ b <> x2d) ->
  take_sign s = (neg, r).
Proof.
  intros H Hr. destruct H as [[-> ->]|[[-> ->]|[-> ->]]]; cbn; try done.
  destruct r as [|b r]; [done|]. destruct (Hr b r eq_refl) as [? ?]. cbn.
  by rewrite !decide_False by done.
Qed.

Lemma decimal_signed t x : decimal t x <->
  exists neg ds, signed_text t neg ds /\ ds <> [] /\ Forall is_digit ds /\
    x = (if neg then - digits_value ds else digits_value ds).
Proof.
  unfold decimal. split.
  - intros (ds & n & Hd & Hne & H). apply digits_iff in Hd as [Hd ->].
    destruct H as [[-> ->]|[[-> ->]|[-> ->]]].
    + exists false, ds. split_and!; [by left|done..].
    + exists false, ds. split_and!; [by right; left|done..].
    + exists true, ds. split_and!; [by right; right|done..].
  - intros (neg & ds & Hs & Hne & Hd & ->). exists ds, (digits_value ds).
    split_and!; [by apply digits_iff|done|]. destruct Hs as [[-> ->]|[[-> ->]|[-> ->]]]; auto.
Qed.

Lemma digit_not_sign b : is_digit b -> b <> x2b /\ b <> x2d /\ b <> x2e /\ b <> x65 /\ b <> x45.
Proof. intros [d H]. split_and!; intros ->; vm_compute in H; done. Qed.

Lemma read_exponent_spec s x : read_exponent s = Some x <->
  s = [] /\ x = 0 \/ exists c t, (c = x65 \/ c = x45) /\ s = c :: t /\ decimal t x.
Proof.
  destruct s as [|b r]; cbn.
  - split; [intros [= <-]; by left|]. intros [[_ ->]|(c & t & _ & [=] & _)]. done.
  - destruct (decide (b = x65 \/ b = x45)) as [Hb|Hb].
    2: { split; [done|]. intros [[[=] _]|(c & t & Hc & [= -> ->] & _)]. done. }
    split.
    + intros H. right. exists b, r. split_and!; [done..|]. apply decimal_signed.
      destruct (take_sign_cases r) as (neg & r' & E & Hs & _). rewrite E in H.
      destruct (span_digits r') as [ds rest] eqn:Es. destruct ds as [|d ds]; [done|].
      destruct rest; [|done]. injection H as <-. apply span_spec in Es as (-> & Hd & _).
      rewrite app_nil_r in Hs. exists neg, (d :: ds). done.
    + intros [[[=] _]|(c & t & Hc & [= <- <-] & Hd)]. apply decimal_signed in Hd as (neg & ds & Hs & Hne & Hds & ->).
      rewrite (take_sign_of r neg ds Hs).
      2: { intros b' r' ->. apply Forall_cons in Hds as [Hb' _]. apply digit_not_sign in Hb'. tauto. }
      assert (E : span_digits (ds ++ []) = (ds, [])) by (apply span_app; [done|by intros ? ? [=]]).
      rewrite app_nil_r in E. rewrite E. by destruct ds.
Qed.

(** ** Decimals *)

Lemma ex_stops ex x : ex = [] /\ x = 0 \/ (exists c t, (c = x65 \/ c = x45) /\ ex = c :: t /\ decimal t x) ->
  stops ex /\ forall r, ex <> x2e :: r.
Proof.
  intros [[-> _]|(c & t & Hc & -> & _)]; [split; [by intros ? ? [=]|done]|].
  split; [intros b r' [= <- <-]|intros r [= -> _]]; destruct Hc as [Hc|Hc]; try (subst c; by vm_compute); done.
Qed.

Lemma read_decimal_spec s m k : read_decimal s = Some (m, k) <-> numeral s m k.
Proof.
  unfold read_decimal, numeral. split.
  - destruct (span_digits s) as [whole r] eqn:E1. apply span_spec in E1 as (-> & Hw & Hs).
    set (p := match r with b :: r' => if decide (b = x2e) then span_digits r' else ([], r) | [] => ([], r) end).
    assert (Hp : exists frac r', p = (frac, r') /\ Forall is_digit frac /\
                  (r = r' /\ frac = [] \/ r = lit "."%string ++ frac ++ r')).
    { unfold p. destruct r as [|b r]; [exists [], []; split_and!; [done..|by left]|].
      destruct (decide (b = x2e)) as [->|Hb].
      - destruct (span_digits r) as [frac r'] eqn:E2. apply span_spec in E2 as (-> & Hf & _).
        exists frac, r'. split_and!; [done..|by right].
      - exists [], (b :: r). split_and!; [done..|by left]. }
    destruct Hp as (frac & r' & -> & Hf & Hr). destruct (whole ++ frac) as [|b ds] eqn:Ed; [done|].
    destruct (read_exponent r') as [x|] eqn:Ex; [|done]. intros [= <- <-].
    apply read_exponent_spec in Ex. exists whole, frac, r', x. rewrite Ed. split_and!; try done.
    + apply digits_iff. split; [|done]. rewrite <-Ed. by apply Forall_app.
    + destruct Hr as [[-> ->]| ->]; [by left|by right].
  - intros (whole & frac & ex & x & Hd & Hne & Hs & Hx & ->). pose proof (ex_stops ex x Hx) as [Hst Hpt].
    apply digits_iff in Hd as [Hd ->]. pose proof Hd as Hd'. apply Forall_app in Hd' as [Hw Hf].
    apply read_exponent_spec in Hx.
    destruct Hs as [[-> ->]| ->].
    + rewrite span_app by done.
      assert (E : match ex with b :: r' => if decide (b = x2e) then span_digits r' else ([], ex) | [] => ([], ex) end = ([], ex)).
      { destruct ex as [|b ex]; [done|]. destruct (decide (b = x2e)) as [->|]; [|done]. by destruct (Hpt ex). }
      rewrite E, Hx. by destruct (whole ++ []).
    + rewrite span_app by (try done; intros b r' [= <- <-]; by vm_compute).
      change (lit "."%string ++ frac ++ ex) with (x2e :: frac ++ ex). cbn match.
      rewrite decide_True by done. rewrite span_app by done. rewrite Hx. by destruct (whole ++ frac).
Qed.

Lemma numeral_head s m k : numeral s m k -> exists b r, s = b :: r /\ (is_digit b \/ b = x2e) /\ 0 <= m.
Proof.
  intros (whole & frac & ex & x & Hd & Hne & Hs & _). pose proof (digits_nonneg _ _ Hd) as Hm.
  apply digits_iff in Hd as [Hd _]. destruct whole as [|b whole].
  - destruct Hs as [[-> ->]| ->]; [done|]. exists x2e, (frac ++ ex). split_and!; [done|by right|done].
  - apply Forall_cons in Hd as [Hb _]. destruct Hs as [[-> ->]| ->]; eexists b, _; (split_and!; [reflexivity|by left|done]).
Qed.

(** ** Letters *)

Lemma lower_letter b c : (97 <= b2n c <= 122)%N -> ascii_lower b = c <-> letter b c.
Proof.
  intros Hc. unfold ascii_lower, letter. pose proof (b2n_lt b).
  destruct ((65 <=? b2n b) && (b2n b <=? 90))%N eqn:Hb.
  - split.
    + intros <-. right. rewrite b2n_n2b_small by lia. done.
    + intros [->|E]; [lia|]. apply b2n_inj. rewrite b2n_n2b_small by lia. done.
  - split; [by left|]. intros [->|E]; [done|lia].
Qed.

Lemma letters_spec s (t : string) : Forall (fun c => 97 <= b2n c <= 122)%N (lit t) ->
  same_letters s (lit t) = true <-> letters s t.
Proof.
  unfold same_letters, letters, bytes_eqb. rewrite bool_decide_eq_true. generalize (lit t). clear t.
  intros t Ht. revert s. induction Ht as [|c t Hc Ht IH]; intros s.
  - split; [intros H%map_eq_nil; subst; constructor|]. by intros ->%Forall2_nil_inv_r.
  - destruct s as [|b s]; cbn; [split; [done|by intros H%Forall2_nil_inv_l]|].
    rewrite Forall2_cons, <-IH, <-(lower_letter b c Hc). split; [by intros [= -> ->]|by intros [-> ->]].
Qed.

Lemma letters_head s t c r : lit t = c :: r -> (97 <= b2n c <= 122)%N -> letters s t ->
  exists b s', s = b :: s' /\ b <> x2b /\ b <> x2d /\ digit b = None /\ b <> x2e.
Proof.
  unfold letters. intros -> Hc H. destruct s as [|b s]; [by apply Forall2_nil_inv_l in H|].
  apply Forall2_cons in H as [H _]. exists b, s. split; [done|].
  assert (Hb : (65 <= b2n b <= 122)%N) by (destruct H as [->|H]; lia).
  split_and!; try (intros ->; vm_compute in Hb; by destruct Hb).
  unfold digit, Utf8.in_range. destruct ((48 <=? b2n b) && (b2n b <=? 57))%N eqn:E; [lia|done].
Qed.

(** ** The closest float is one *)

Lemma nearest_ratio_units x d a b : 0 < d -> (a < 2 ^ 64)%N -> (b < 2 ^ 64)%N ->
  nearest_ratio x d a -> nearest_ratio x d b -> units a = units b.
Proof.
  intros Hd Ha Hb [Na Ma] [Nb Mb].
  destruct (Ma b Nb) as [L1 E1], (Mb a Na) as [L2 E2].
  assert (Heq : Z.abs (units a * d - x) = Z.abs (units b * d - x)) by lia.
  destruct (Z.eq_dec (units a) (units b)) as [|Hne]; [done|].
  specialize (E1 Heq ltac:(congruence)). specialize (E2 ltac:(congruence) Hne).
  destruct (Z.lt_trichotomy (units a) (units b)) as [H|[H|H]]; [|done|].
  - destruct (another a b) as (g & Ng & Hg); try done. destruct (Ma g Ng) as [Lg _]. nia.
  - destruct (another b a) as (g & Ng & Hg); try done. destruct (Ma g Ng) as [Lg _]. nia.
Qed.

Lemma pow10_pos k : 0 < 10 ^ Z.max 0 k.
Proof. apply Z.pow_pos_nonneg; lia. Qed.

Lemma closest_unique neg m k a b : closest neg m k a -> closest neg m k b -> a = b.
Proof.
  intros (Ha & Sa & Ra & Ra') (Hb & Sb & Rb & Rb'). pose proof (pow10_pos (- k)) as Hd.
  set (den := 10 ^ Z.max 0 (- k)) in *. set (num := (if neg then - m else m) * _ * _) in *.
  destruct (Z.lt_ge_cases (Z.abs num) (overflow * den)) as [H|H].
  - destruct (same_units a b Ha Hb) as [|(s & t & -> & ->)]; [|done|].
    { apply (nearest_ratio_units num den); auto. }
    assert (E : forall s, negative (zero s) = s) by by intros [].
    rewrite E in Sa, Sb. by subst.
  - by rewrite Ra', Rb'.
Qed.

Lemma closest_round neg m k : 0 <= m -> closest neg m k (with_sign neg (round_decimal m k)).
Proof.
  intros Hm. pose proof (pow10_pos k) as Hp. pose proof (pow10_pos (- k)) as Hd.
  assert (H2 : 0 < 2 ^ 1074) by (apply Z.pow_pos_nonneg; lia).
  unfold closest, round_decimal. set (P := 10 ^ Z.max 0 k) in *. set (D := 10 ^ Z.max 0 (- k)) in *.
  set (T := 2 ^ 1074) in *. clearbody P D T.
  assert (Hnum : 0 <= m * P * T) by nia.
  destruct (round_best (m * P * T) D Hnum Hd) as (r & _ & E).
  assert (Hr : (round_ratio (m * P * T) D <= top_rank)%N) by lia. clear E r. unfold top_rank in Hr.
  split_and!.
  - unfold with_sign. destruct neg; lia.
  - change (negative (pattern neg (round_ratio (m * P * T) D)) = neg). apply pattern_parts. lia.
  - replace ((if neg then - m else m) * P * T) with (if neg then - (m * P * T) else m * P * T) by (destruct neg; lia).
    by apply round_rounds.
Qed.

(** ** Reading *)

Lemma c113_read w f : read_f64 w = Some f <-> float_word w f.
Proof.
  unfold read_f64, float_word. split.
  - destruct (take_sign_cases w) as (neg & s & E & Hs & _). rewrite E.
    destruct (read_decimal s) as [[m k]|] eqn:Hd.
    + intros [= <-]. exists neg, s. split; [done|]. left. apply read_decimal_spec in Hd. exists m, k. split; [done|].
      apply closest_round. by destruct (numeral_head _ _ _ Hd) as (? & ? & _ & _ & ?).
    + destruct (same_letters s (lit "inf") || same_letters s (lit "infinity")) eqn:Hi.
      * intros [= <-]. exists neg, s. split; [done|]. right; left. split; [|done].
        apply orb_true_iff in Hi as [Hi|Hi]; [left|right]; (apply letters_spec; [by repeat constructor|done]).
      * destruct (same_letters s (lit "nan")) eqn:Hn; [|done].
        intros [= <-]. exists neg, s. split; [done|]. right; right. split; [|by destruct neg].
        apply letters_spec; [by repeat constructor|done].
  - intros (neg & s & Hs & H).
    assert (Hl : forall t c r, lit t = c :: r -> (97 <= b2n c <= 122)%N -> letters s t ->
               take_sign w = (neg, s) /\ read_decimal s = None).
    { intros t c r Ht Hc Hl. destruct (letters_head s t c r Ht Hc Hl) as (b & s' & -> & H1 & H2 & H3 & H4). split.
      - apply take_sign_of; [done|]. by intros ? ? [= <- <-].
      - destruct (read_decimal (b :: s')) as [[m k]|] eqn:E; [|done]. exfalso.
        apply read_decimal_spec in E. destruct (numeral_head _ _ _ E) as (? & ? & [= <- <-] & [[d ?]|?] & _); congruence. }
    destruct H as [(m & k & Hn & Hc)|[[Hi ->]|[Hn ->]]].
    + rewrite (take_sign_of w neg s Hs).
      2: { intros b r ->. destruct (numeral_head _ _ _ Hn) as (? & ? & [= <- <-] & [Hb|Hb] & _).
           - apply digit_not_sign in Hb. tauto.
           - by subst. }
      rewrite (proj2 (read_decimal_spec s m k) Hn). f_equal. eapply closest_unique; [|done].
      apply closest_round. by destruct (numeral_head _ _ _ Hn) as (? & ? & _ & _ & ?).
    + destruct Hi as [Hi|Hi].
      * destruct (Hl "inf"%string x69 (lit "nf") eq_refl ltac:(by vm_compute) Hi) as [-> ->].
        rewrite (proj2 (letters_spec s "inf" ltac:(by repeat constructor)) Hi). done.
      * destruct (Hl "infinity"%string x69 (lit "nfinity") eq_refl ltac:(by vm_compute) Hi) as [-> ->].
        rewrite (proj2 (letters_spec s "infinity" ltac:(by repeat constructor)) Hi).
        by rewrite orb_true_r.
    + destruct (Hl "nan"%string x6e (lit "an") eq_refl ltac:(by vm_compute) Hn) as [-> ->].
      assert (Hi : same_letters s (lit "inf") = false /\ same_letters s (lit "infinity") = false).
      { pose proof (proj2 (letters_spec s "nan" ltac:(by repeat constructor)) Hn) as E.
        unfold same_letters, bytes_eqb in *. apply bool_decide_eq_true in E. rewrite E. by vm_compute. }
      destruct Hi as [-> ->]. cbn [orb].
      rewrite (proj2 (letters_spec s "nan" ltac:(by repeat constructor)) Hn). by destruct neg.
Qed.
