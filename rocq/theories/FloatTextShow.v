(** Floats are printed with the fewest digits that are read as the same float (C113). *)
From Coq Require Import String.
From Verif Require Import Bytes BytesFacts Utf8 Cli CliSpec CliFacts FloatSpec FloatRound FloatUnique FloatText
  FloatTextSpec FloatTextFacts FloatTextRead.
From stdpp Require Import list.
From Coq Require Import NArith ZArith Lia ZifyBool ZifyNat ZifyN.
From Coq.Init Require Import Byte.
Local Open Scope Z_scope.

(** ** The number *)

Lemma height_parts n : exists e m, n = Z.to_N (e * 2 ^ 52 + m) /\ 0 <= e /\ 0 <= m < 2 ^ 53 /\
  (e = 0 \/ 2 ^ 52 <= m) /\ units_of n = m * 2 ^ e.
Proof.
  unfold units_of. set (q := Z.of_N n / 2 ^ 52). destruct (Z.eqb_spec q 0) as [E|E].
  - exists 0, (Z.of_N n). unfold q in E. split_and!; lia.
  - exists (q - 1), (Z.of_N n - (q - 1) * 2 ^ 52). unfold q in *. split_and!; lia.
Qed.

Lemma units_of_height n : units_of n = height n.
Proof. destruct (height_parts n) as (e & m & -> & ? & ? & ? & ->). symmetry. apply height_at; lia. Qed.

Lemma height_double n : (0 < n)%N -> height (n + 1) <= 2 * height n.
Proof.
  intros Hn. destruct (height_parts n) as (e & m & E & He & Hm & Hc & _).
  assert (H1 : height n = m * 2 ^ e) by (rewrite E; apply height_at; lia).
  assert (H2 : height (n + 1) = (m + 1) * 2 ^ e).
  { replace (n + 1)%N with (Z.to_N (e * 2 ^ 52 + (m + 1))) by lia. apply height_at; lia. }
  rewrite H1, H2. pose proof (Z.pow_pos_nonneg 2 e ltac:(lia) He).
  assert (1 <= m). { destruct (Z.eq_dec m 0) as [->|]; [|lia]. destruct Hc as [->|]; lia. } nia.
Qed.

(** ** Decimals in order *)

Lemma T_pos : 0 < 2 ^ 1074.
Proof. apply Z.pow_pos_nonneg; lia. Qed.

Lemma round_decimal_mono a b k : 0 <= a <= b -> (round_decimal a k <= round_decimal b k)%N.
Proof.
  intros H. unfold round_decimal. pose proof (pow10_pos k). pose proof (pow10_pos (- k)). pose proof T_pos.
  set (P := 10 ^ Z.max 0 k) in *. set (D := 10 ^ Z.max 0 (- k)) in *. set (T := 2 ^ 1074) in *. clearbody P D T.
  apply round_mono; try lia; try (repeat apply Z.mul_nonneg_nonneg; lia).
  repeat apply Z.mul_le_mono_nonneg_r; lia.
Qed.

Lemma round_decimal_scale m k j : 0 <= m -> j <= k -> round_decimal m k = round_decimal (m * 10 ^ (k - j)) j.
Proof.
  intros Hm Hj. unfold round_decimal.
  assert (E : 10 ^ Z.max 0 k * 10 ^ Z.max 0 (- j) = 10 ^ (k - j) * 10 ^ Z.max 0 j * 10 ^ Z.max 0 (- k)).
  { rewrite <-!Z.pow_add_r by lia. f_equal. lia. }
  pose proof (pow10_pos k). pose proof (pow10_pos (- k)). pose proof (pow10_pos j). pose proof (pow10_pos (- j)).
  pose proof T_pos. assert (0 < 10 ^ (k - j)) by (apply Z.pow_pos_nonneg; lia).
  set (P := 10 ^ Z.max 0 k) in *. set (D := 10 ^ Z.max 0 (- k)) in *. set (T := 2 ^ 1074) in *.
  set (P' := 10 ^ Z.max 0 j) in *. set (D' := 10 ^ Z.max 0 (- j)) in *. set (S := 10 ^ (k - j)) in *.
  clearbody P D T P' D' S.
  apply round_same; try lia; try (repeat apply Z.mul_nonneg_nonneg; lia).
  transitivity (m * T * (P * D')); [ring|]. rewrite E. ring.
Qed.

Lemma round_height r : round_ratio (height r) 1 = N.min r top_rank.
Proof.
  destruct (round_best (height r) 1) as (r' & Hr' & ->); [apply height_nonneg|lia|].
  pose proof (best_exact r 1 ltac:(lia)) as He.
  assert (E : height r * 1 = height r * 1 * 1) by lia.
  by rewrite (best_unique _ 1 _ 1 r' r ltac:(lia) ltac:(lia) E Hr' He).
Qed.

Lemma round_decimal_le d k r : 0 <= d ->
  d * (2 ^ 1074 * 10 ^ Z.max 0 k) <= height r * 10 ^ Z.max 0 (- k) -> (round_decimal d k <= N.min r top_rank)%N.
Proof.
  intros Hd H. rewrite <-round_height. unfold round_decimal.
  pose proof (pow10_pos k). pose proof (pow10_pos (- k)). pose proof T_pos. pose proof (height_nonneg r).
  set (P := 10 ^ Z.max 0 k) in *. set (D := 10 ^ Z.max 0 (- k)) in *. set (T := 2 ^ 1074) in *. clearbody P D T.
  apply round_mono; try lia; try (repeat apply Z.mul_nonneg_nonneg; lia).
Qed.

Lemma round_decimal_ge d k r : 0 <= d ->
  height r * 10 ^ Z.max 0 (- k) <= d * (2 ^ 1074 * 10 ^ Z.max 0 k) -> (N.min r top_rank <= round_decimal d k)%N.
Proof.
  intros Hd H. rewrite <-round_height. unfold round_decimal.
  pose proof (pow10_pos k). pose proof (pow10_pos (- k)). pose proof T_pos. pose proof (height_nonneg r).
  set (P := 10 ^ Z.max 0 k) in *. set (D := 10 ^ Z.max 0 (- k)) in *. set (T := 2 ^ 1074) in *. clearbody P D T.
  apply round_mono; try lia; try (repeat apply Z.mul_nonneg_nonneg; lia).
Qed.

Lemma round_decimal_zero k : round_decimal 0 k = 0%N.
Proof.
  pose proof (round_decimal_le 0 k 0 ltac:(lia)) as H. rewrite height_0 in H. specialize (H ltac:(lia)).
  rewrite N.min_l in H by (unfold top_rank; lia). lia.
Qed.

Lemma round_decimal_huge m k : 1 <= m -> 309 <= k -> round_decimal m k = top_rank.
Proof.
  intros Hm Hk. rewrite (round_decimal_scale m k 309) by lia. unfold round_decimal.
  change (Z.max 0 (- (309))) with 0. change (Z.max 0 309) with 309. rewrite Z.pow_0_r.
  assert (0 < 10 ^ (k - 309)) by (apply Z.pow_pos_nonneg; lia).
  assert (Ho : overflow <= 10 ^ 309 * 2 ^ 1074) by (apply Z.leb_le; vm_compute; reflexivity).
  assert (Hp : 0 < overflow) by (vm_compute; reflexivity).
  set (S := 10 ^ (k - 309)) in *. set (Q := 10 ^ 309) in *. set (T := 2 ^ 1074) in *. set (O := overflow) in *.
  assert (HQ : O <= m * S * Q * T).
  { assert (1 <= m * S) by nia. assert (0 < Q * T) by nia. nia. }
  destruct (round_best (m * S * Q * T) 1) as (r & Hr & ->); [lia|lia|].
  assert (top_rank <= r)%N; [|lia]. apply (best_above (m * S * Q * T) 1); [lia|lia|done|fold O; lia].
Qed.

(** ** The search *)

(** Nothing at this power of ten is read as [n]. *)
Definition misses (n : N) (k : Z) : Prop := forall m, 0 <= m -> round_decimal m k <> n.

Lemma ten_two_five x : 0 <= x -> 10 ^ x = 5 ^ x * 2 ^ x.
Proof. intros H. by rewrite <-Z.pow_mul_l. Qed.

Lemma hits_last n : (0 < n < top_rank)%N -> ~ misses n (-1074).
Proof.
  intros Hn H. apply (H (height n * 5 ^ 1074)).
  { pose proof (height_nonneg n). pose proof (Z.pow_nonneg 5 1074 ltac:(lia)).
    set (F := 5 ^ 1074) in *. clearbody F. nia. }
  unfold round_decimal. change (Z.max 0 (- -1074)) with 1074. change (Z.max 0 (-1074)) with 0.
  rewrite Z.pow_0_r, (ten_two_five 1074) by lia.
  pose proof (height_nonneg n). pose proof T_pos. assert (0 < 5 ^ 1074) by (apply Z.pow_pos_nonneg; lia).
  set (F := 5 ^ 1074) in *. set (T := 2 ^ 1074) in *. clearbody F T.
  apply round_exact; [|nia|ring|lia]. assert (0 <= height n * F) by nia. nia.
Qed.

Lemma shortest_spec fuel : forall n k, (0 < n < top_rank)%N -> -1074 <= k -> k + 1075 <= Z.of_nat fuel ->
  exists d j, shortest fuel n k = (d, j) /\ -1074 <= j <= k /\ 0 < d /\ round_decimal d j = n /\
    (forall i, j < i <= k -> misses n i) /\
    (forall m, 0 <= m -> round_decimal m j = n -> distance d j (height n) <= distance m j (height n)).
Proof.
  induction fuel as [|fuel IH]; intros n k Hn Hk Hf; [lia|].
  cbn [shortest]. rewrite units_of_height.
  pose proof (pow10_pos k) as HP. pose proof (pow10_pos (- k)) as HD. pose proof T_pos as HT.
  pose proof (height_pos n ltac:(lia)) as Hh.
  pose proof (round_decimal_le) as RL. specialize (fun d r => RL d k r).
  pose proof (round_decimal_ge) as RG. specialize (fun d r => RG d k r).
  unfold distance.
  set (num := height n * 10 ^ Z.max 0 (- k)). set (den := 2 ^ 1074 * 10 ^ Z.max 0 k).
  assert (Hden : 0 < den) by (unfold den; set (T := 2 ^ 1074) in *; clearbody T; nia).
  assert (Hnum : 0 < num) by (unfold num; nia).
  assert (Hnext : misses n k -> exists d j, shortest fuel n (k - 1) = (d, j) /\ -1074 <= j <= k /\ 0 < d /\
    round_decimal d j = n /\ (forall i, j < i <= k -> misses n i) /\
    (forall m, 0 <= m -> round_decimal m j = n -> distance d j (height n) <= distance m j (height n))).
  { intros Hm. assert (k <> -1074) by (intros ->; by apply (hits_last n)).
    destruct (IH n (k - 1)) as (d & j & E & Hj & Hd & Hr & Hmiss & Hc); [done|lia|lia|].
    exists d, j. split_and!; try done; try lia. intros i Hi. destruct (Z.eq_dec i k) as [->|]; [done|].
    apply Hmiss. lia. }
  destruct (Z.ltb_spec (2 * num) den) as [Hlt|Hge].
  { apply Hnext. intros m Hm E. destruct (Z.eq_dec m 0) as [->|Hm0].
    - rewrite round_decimal_zero in E. lia.
    - pose proof (height_double n ltac:(lia)) as H2.
      assert (H3 : (N.min (n + 1) top_rank <= round_decimal m k)%N); [|lia].
      apply RG; [lia|]. fold den. unfold num in *. set (D := 10 ^ Z.max 0 (- k)) in *. clearbody D den. nia. }
  set (d := num / den). pose proof (Z.div_mod num den ltac:(lia)) as Hdm. fold d in Hdm.
  pose proof (Z.mod_pos_bound num den Hden) as Hr. set (r := num mod den) in *.
  assert (Hd0 : 0 <= d) by (apply Z.div_pos; lia).
  assert (Rd : (round_decimal d k <= n)%N).
  { specialize (RL d n Hd0). fold num den in RL. specialize (RL ltac:(lia)). lia. }
  assert (Ru : (n <= round_decimal (d + 1) k)%N).
  { specialize (RG (d + 1) n ltac:(lia)). fold num den in RG. specialize (RG ltac:(lia)). lia. }
  assert (Hdist : forall m, m * 10 ^ Z.max 0 k * 2 ^ 1074 - height n * 10 ^ Z.max 0 (- k) = m * den - num).
  { intros m. unfold den, num. ring. }
  assert (Hlo : forall m, m <= d -> m * den <= d * den) by (intros; apply Z.mul_le_mono_nonneg_r; lia).
  assert (Hhi : forall m, d < m -> d * den + den <= m * den).
  { intros m Hm. replace (d * den + den) with ((d + 1) * den) by ring. apply Z.mul_le_mono_nonneg_r; lia. }
  assert (Hlow : forall m, 0 <= m <= d -> round_decimal m k = n -> (0 <? d) && (round_decimal d k =? n)%N = true).
  { intros m Hm E. pose proof (round_decimal_mono m d k Hm). assert (round_decimal d k = n) by lia.
    destruct (Z.eq_dec d 0) as [->|]; [|lia]. rewrite round_decimal_zero in *. lia. }
  assert (Hhigh : forall m, d + 1 <= m -> round_decimal m k = n -> (round_decimal (d + 1) k =? n)%N = true).
  { intros m Hm E. pose proof (round_decimal_mono (d + 1) m k ltac:(lia)). lia. }
  destruct ((0 <? d) && (round_decimal d k =? n)%N) eqn:Hdn;
    destruct (round_decimal (d + 1) k =? n)%N eqn:Hup; cbn [negb andb orb].
  - destruct (Z.leb_spec den (2 * r)).
    + exists (d + 1), k. split_and!; try lia; [done|].
      intros m Hm E. rewrite !Hdist. destruct (Z.le_gt_cases m d) as [Hc|Hc]; [specialize (Hlo m Hc)|specialize (Hhi m Hc)]; lia.
    + exists d, k. split_and!; try lia; [done|].
      intros m Hm E. rewrite !Hdist. destruct (Z.le_gt_cases m d) as [Hc|Hc]; [specialize (Hlo m Hc)|specialize (Hhi m Hc)]; lia.
  - exists d, k. split_and!; try lia; [done|].
    intros m Hm E. rewrite !Hdist. destruct (Z.le_gt_cases m d) as [Hc|Hc]; [specialize (Hlo m Hc); lia|].
    pose proof (Hhigh m ltac:(lia) E). congruence.
  - exists (d + 1), k. split_and!; try lia; [done|].
    intros m Hm E. rewrite !Hdist. destruct (Z.le_gt_cases m d) as [Hc|Hc]; [|specialize (Hhi m Hc); lia].
    pose proof (Hlow m ltac:(lia) E). congruence.
  - apply Hnext. intros m Hm E. destruct (Z.le_gt_cases m d).
    + pose proof (Hlow m ltac:(lia) E). congruence.
    + pose proof (Hhigh m ltac:(lia) E). congruence.
Qed.

(** What is found has the fewest digits. *)
Lemma shortest_best n : (0 < n < top_rank)%N ->
  exists d j, shortest 1400 n 308 = (d, j) /\ 0 < d /\ round_decimal d j = n /\ d mod 10 <> 0 /\
    forall d' j', 0 <= d' -> round_decimal d' j' = n ->
      (forall x, 0 <= x -> d' < 10 ^ x -> d < 10 ^ x) /\
      (j' = j -> distance d j (height n) <= distance d' j' (height n)).
Proof.
  intros Hn. destruct (shortest_spec 1400 n 308 Hn ltac:(lia) ltac:(vm_compute; discriminate)) as
    (d & j & E & Hj & Hd & Hr & Hmiss & Hc).
  assert (Hmiss' : forall i, j < i -> misses n i).
  { intros i Hi. destruct (Z.le_gt_cases i 308); [apply Hmiss; lia|]. intros m Hm Em.
    destruct (Z.eq_dec m 0) as [->|]; [rewrite round_decimal_zero in Em; lia|].
    rewrite round_decimal_huge in Em by lia. lia. }
  exists d, j. split_and!; try done.
  - intros H0. apply (Hmiss' (j + 1) ltac:(lia) (d / 10)).
    + apply Z.div_pos; lia.
    + rewrite (round_decimal_scale _ (j + 1) j) by (try lia; apply Z.div_pos; lia).
      replace (j + 1 - j) with 1 by lia. rewrite Z.pow_1_r. replace (d / 10 * 10) with d by lia. done.
  - intros d' j' Hd' Hr'. split; [|intros ->; by apply Hc].
    assert (Hj' : j' <= j). { destruct (Z.le_gt_cases j' j); [done|]. by destruct (Hmiss' j' ltac:(lia) d'). }
    intros x Hx Hlt. destruct (Z.lt_ge_cases d (10 ^ x)) as [|Hge]; [done|exfalso].
    assert (0 < 10 ^ x) by (apply Z.pow_pos_nonneg; lia).
    assert (H1 : (round_decimal (10 ^ x) j <= n)%N) by (rewrite <-Hr; apply round_decimal_mono; lia).
    assert (H2 : (n <= round_decimal (10 ^ x) j)%N).
    { rewrite <-Hr'. rewrite (round_decimal_scale (10 ^ x) j j') by lia. apply round_decimal_mono.
      assert (0 < 10 ^ (j - j')) by (apply Z.pow_pos_nonneg; lia). nia. }
    destruct (Z.eq_dec x 0) as [->|Hx0].
    + rewrite Z.pow_0_r in *. assert (d' = 0) as -> by lia. rewrite round_decimal_zero in Hr'. lia.
    + apply (Hmiss' (j + x) ltac:(lia) 1 ltac:(lia)).
      rewrite (round_decimal_scale 1 (j + x) j) by lia. replace (j + x - j) with x by lia.
      rewrite Z.mul_1_l. lia.
Qed.

(** ** The text *)

Lemma digits_value_app a b : Forall is_digit b ->
  digits_value (a ++ b) = digits_value a * 10 ^ Z.of_nat (length b) + digits_value b.
Proof.
  induction b as [|c b IH] using rev_ind; intros H.
  - rewrite app_nil_r. cbn. lia.
  - apply Forall_app in H as [H Hc]. apply Forall_cons in Hc as [[d Hd] _].
    rewrite app_assoc, !(digits_value_snoc _ c d Hd), IH by done.
    rewrite app_length. cbn [length]. rewrite Nat2Z.inj_add, Z.pow_add_r by lia.
    change (10 ^ Z.of_nat 1) with 10. ring.
Qed.

Lemma zeros_digits n : Forall is_digit (replicate n x30) /\ digits_value (replicate n x30) = 0.
Proof.
  assert (H : Forall is_digit (replicate n x30)) by (apply Forall_replicate; by exists 0).
  split; [done|]. induction n as [|n IH]; [done|]. rewrite replicate_S_end.
  rewrite (digits_value_snoc _ x30 0) by done. rewrite IH; [done|]. apply Forall_replicate. by exists 0.
Qed.

Lemma place_point_numeral ds d k : digits ds d -> ds <> [] ->
  numeral (place_point ds k) (d * 10 ^ Z.max 0 k) (Z.min 0 k).
Proof.
  intros Hds Hne. apply digits_iff in Hds as [Hds ->]. unfold place_point, numeral.
  destruct (Z.leb_spec 0 k) as [Hk|Hk].
  - destruct (zeros_digits (Z.to_nat k)) as [Z1 Z2].
    exists (ds ++ replicate (Z.to_nat k) x30), [], [], 0. rewrite !app_nil_r. split_and!.
    + apply digits_iff. split; [by apply Forall_app|]. rewrite digits_value_app by done.
      rewrite Z2, replicate_length, Z.max_r, Z2Nat.id by lia. lia.
    + by destruct ds.
    + by left.
    + by left.
    + cbn. lia.
  - rewrite Z.max_l, Z.pow_0_r, Z.mul_1_r by lia.
    destruct (Z.leb_spec (Z.of_nat (length ds) + k) 0) as [Hp|Hp].
    + set (q := Z.to_nat (- (Z.of_nat (length ds) + k))). destruct (zeros_digits q) as [Z1 Z2].
      exists [x30], (replicate q x30 ++ ds), [], 0. split_and!.
      * apply digits_iff. split; [constructor; [by exists 0|by apply Forall_app]|].
        change ([x30] ++ replicate q x30 ++ ds) with (replicate (S q) x30 ++ ds).
        rewrite digits_value_app by done. by rewrite (proj2 (zeros_digits (S q))).
      * done.
      * right. by rewrite app_nil_r.
      * by left.
      * rewrite app_length, replicate_length. lia.
    + set (q := Z.to_nat (Z.of_nat (length ds) + k)).
      exists (take q ds), (drop q ds), [], 0. rewrite take_drop. split_and!.
      * by apply digits_iff.
      * done.
      * right. by rewrite app_nil_r.
      * by left.
      * rewrite drop_length. lia.
Qed.

Lemma digit_listed b : is_digit b -> b ∈ lit "0123456789."%string.
Proof.
  intros [d Hd]. unfold digit, Utf8.in_range in Hd. destruct ((48 <=? b2n b) && (b2n b <=? 57))%N eqn:E; [|done].
  rewrite <-(n2b_b2n b). set (x := b2n b) in *. clearbody x.
  assert (H : (x = 48 \/ x = 49 \/ x = 50 \/ x = 51 \/ x = 52 \/ x = 53 \/ x = 54 \/ x = 55 \/ x = 56 \/ x = 57)%N) by lia.
  refine (bool_decide_eq_true_1 _ _). repeat destruct H as [->|H]; try by vm_compute. subst x. by vm_compute.
Qed.

Lemma place_point_plain ds k : Forall is_digit ds -> digits_and_points (place_point ds k).
Proof.
  intros H. unfold digits_and_points, place_point.
  assert (G : forall l, Forall is_digit l -> Forall (fun b => b ∈ lit "0123456789."%string) l).
  { intros l Hl. eapply Forall_impl; [exact Hl|]. apply digit_listed. }
  assert (Hp : x2e ∈ lit "0123456789."%string) by (refine (bool_decide_eq_true_1 _ _); by vm_compute).
  assert (Hz : x30 ∈ lit "0123456789."%string) by (refine (bool_decide_eq_true_1 _ _); by vm_compute).
  destruct (0 <=? k); [|destruct (_ <=? 0)].
  - apply Forall_app. split; [auto|]. by apply Forall_replicate.
  - apply Forall_app. split; [by repeat constructor|]. apply Forall_app. split; [by apply Forall_replicate|auto].
  - apply Forall_app. split; [apply G, Forall_take, H|]. apply Forall_app. split; [by repeat constructor|].
    apply G, Forall_drop, H.
Qed.

(** ** Printing *)

Lemma low_bits f : (f < 2 ^ 64)%N -> (f mod 2 ^ 63)%N = rank f /\ f = pattern (negative f) (rank f).
Proof.
  intros Hf. destruct (parts f Hf) as (E & HE & HF).
  assert (Hr : (rank f < 2 ^ 63)%N) by (unfold rank; lia).
  assert (E' : f = pattern (negative f) (rank f)) by (unfold pattern, rank; lia).
  split; [|done]. rewrite E' at 1. unfold pattern. destruct (negative f).
  - replace (2 ^ 63 + rank f)%N with (rank f + 1 * 2 ^ 63)%N by lia. rewrite N.mod_add by done. by apply N.mod_small.
  - by apply N.mod_small.
Qed.

Lemma show_N_nonempty n : uint_bytes (N.to_uint n) <> [].
Proof.
  destruct n as [|p]; [done|]. cbn [N.to_uint]. intros E.
  pose proof (show_N_digits (Npos p)) as H. cbn [N.to_uint] in H. rewrite E in H.
  apply digits_iff in H as [_ H]. done.
Qed.

Lemma closest_rank neg d k f : (f < 2 ^ 64)%N -> number f -> 0 <= d -> negative f = neg ->
  closest neg d k f <-> round_decimal d k = rank f.
Proof.
  intros Hf Nf Hd Hs. destruct (low_bits f Hf) as [_ Ef]. pose proof (rank_number f Hf Nf) as Hr.
  split.
  - intros Hc. pose proof (closest_unique _ _ _ _ _ Hc (closest_round neg d k Hd)) as E.
    rewrite Ef, Hs in E. unfold pattern, with_sign in E. destruct neg; lia.
  - intros E. rewrite Ef, Hs, <-E. apply (closest_round neg d k Hd).
Qed.

Lemma c113_shortest f : (f < 2 ^ 64)%N -> number f -> units f <> 0 ->
  exists s d k, show_float f = minus_sign (negative f) ++ s /\ digits_and_points s /\
    numeral s (d * 10 ^ Z.max 0 k) (Z.min 0 k) /\ 0 < d /\ d mod 10 <> 0 /\ closest (negative f) d k f /\
    forall d' k', 0 <= d' -> closest (negative f) d' k' f ->
      (forall x, 0 <= x -> d' < 10 ^ x -> d < 10 ^ x) /\
      (k' = k -> distance d k (Z.abs (units f)) <= distance d' k' (Z.abs (units f))).
Proof.
  intros Hf Nf Hu. destruct (low_bits f Hf) as [Em Ef]. pose proof (rank_number f Hf Nf) as Hr.
  assert (Hn0 : rank f <> 0%N).
  { intros E. apply Hu. rewrite units_height, E, height_0 by done. by destruct (negative f). }
  assert (Hab : Z.abs (units f) = height (rank f)).
  { rewrite units_height by done. pose proof (height_nonneg (rank f)). destruct (negative f); lia. }
  destruct (shortest_best (rank f)) as (d & k & E & Hd & Hrd & H10 & Hbest); [unfold top_rank; lia|].
  exists (place_point (uint_bytes (N.to_uint (Z.to_N d))) k), d, k.
  pose proof (show_N_digits (Z.to_N d)) as Hdig. rewrite Z2N.id in Hdig by lia.
  split_and!; try done.
  - unfold show_float. rewrite Em.
    destruct (N.ltb_spec (2047 * 2 ^ 52) (rank f)); [lia|].
    destruct (N.eqb_spec (rank f) (2047 * 2 ^ 52)); [lia|].
    destruct (N.eqb_spec (rank f) 0); [lia|]. rewrite E. unfold minus_sign, negative. by destruct (N.testbit f 63).
  - apply place_point_plain. by apply digits_iff in Hdig as [? _].
  - apply place_point_numeral; [done|apply show_N_nonempty].
  - apply closest_rank; [done..|lia|done|done].
  - intros d' k' Hd' Hc. rewrite Hab. apply Hbest; [done|]. by apply (closest_rank (negative f)).
Qed.

Lemma numeral_zero : numeral (lit "0"%string) 0 0.
Proof.
  exists [x30], [], [], 0. split_and!; try done; [|by left|by left].
  apply digits_iff. split; [|done]. constructor; [by exists 0|done].
Qed.

Lemma closest_scale neg d k f : 0 <= d -> closest neg d k f -> closest neg (d * 10 ^ Z.max 0 k) (Z.min 0 k) f.
Proof.
  intros Hd Hc. pose proof (closest_unique _ _ _ _ _ Hc (closest_round neg d k Hd)) as ->.
  pose proof (pow10_pos k).
  assert (E : round_decimal d k = round_decimal (d * 10 ^ Z.max 0 k) (Z.min 0 k)).
  { rewrite (round_decimal_scale d k (Z.min 0 k)) by lia. by replace (k - Z.min 0 k) with (Z.max 0 k) by lia. }
  rewrite E. apply closest_round. nia.
Qed.

Lemma c113_print f : (f < 2 ^ 64)%N -> number f ->
  exists s m k, show_float f = minus_sign (negative f) ++ s /\ digits_and_points s /\ numeral s m k /\
    closest (negative f) m k f.
Proof.
  intros Hf Nf. destruct (Z.eq_dec (units f) 0) as [Hu|Hu].
  - destruct (low_bits f Hf) as [Em Ef].
    assert (Hr : rank f = 0%N).
    { apply height_inj. rewrite height_0. rewrite units_height in Hu by done. destruct (negative f); lia. }
    exists (lit "0"%string), 0, 0. split_and!; try done.
    + unfold show_float. rewrite Em, Hr. cbn [N.ltb N.eqb]. unfold minus_sign, negative. by destruct (N.testbit f 63).
    + constructor; [|constructor]. refine (bool_decide_eq_true_1 _ _). by vm_compute.
    + apply numeral_zero.
    + apply closest_rank; [done..|]. by rewrite round_decimal_zero.
  - destruct (c113_shortest f Hf Nf Hu) as (s & d & k & E & Hp & Hn & Hd & _ & Hc & _).
    exists s, (d * 10 ^ Z.max 0 k), (Z.min 0 k). split_and!; try done. apply closest_scale; [lia|done].
Qed.

Lemma c113_round_trip f : (f < 2 ^ 64)%N ->
  (nan f /\ show_float f = lit "NaN"%string /\ exists g, float_word (show_float f) g /\ nan g) \/
  (~ nan f /\ float_word (show_float f) f /\ forall g, float_word (show_float f) g -> g = f).
Proof.
  intros Hf. destruct (low_bits f Hf) as [Em Ef].
  assert (Hu : forall w a b, float_word w a -> float_word w b -> a = b).
  { intros w a b Ha%c113_read Hb%c113_read. congruence. }
  assert (Hi : forall neg, f = infinity neg -> float_word (show_float f) f).
  { intros neg ->. exists neg, (lit "inf"). split.
    - destruct neg; [right; right|left]; by vm_compute.
    - right; left. split; [|done]. left. by repeat constructor. }
  destruct (decide (exponent f = 2047%N)) as [He|He].
  - destruct (decide (fraction f = 0%N)) as [Hf0|Hf0].
    + right. assert (E : f = infinity (negative f)).
      { rewrite Ef at 1. unfold pattern, infinity, rank. rewrite He, Hf0. by rewrite N.add_0_r. }
      assert (H : float_word (show_float f) f) by by apply (Hi (negative f)).
      split_and!; [by intros [_ ?]|done|]. intros g Hg. by apply (Hu (show_float f)).
    + left. assert (Es : show_float f = lit "NaN"%string).
      { unfold show_float. rewrite Em. unfold rank. rewrite He.
        destruct (N.ltb_spec (2047 * 2 ^ 52) (2047 * 2 ^ 52 + fraction f)); [done|lia]. }
      split_and!; [by split|done|]. exists (infinity false + 2 ^ 51)%N. rewrite Es. split; [|by vm_compute].
      exists false, (lit "NaN"). split; [by left|]. right; right. split; [|done].
      constructor; [by right|]. constructor; [by left|]. constructor; [by right|constructor].
  - right. assert (Nf : number f) by done.
    assert (H : float_word (show_float f) f).
    { destruct (c113_print f Hf Nf) as (s & m & k & E & _ & Hn & Hc). rewrite E.
      exists (negative f), s. split.
      - unfold minus_sign. destruct (negative f); [right; right|left]; done.
      - left. by exists m, k. }
    split_and!; [by intros [? _]|done|]. intros g Hg. by apply (Hu (show_float f)).
Qed.
