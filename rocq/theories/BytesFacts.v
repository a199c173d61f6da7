(** Lemmas about the primitives of [Bytes]. *)
From Verif Require Import Bytes.
From stdpp Require Import gmap list.
From Coq Require Import NArith ZArith Lia.
From Coq Require Import ZifyBool ZifyNat ZifyN.

Global Arguments N.add : simpl never.
Global Arguments N.sub : simpl never.
Global Arguments N.mul : simpl never.
Global Arguments N.div : simpl never.
Global Arguments N.modulo : simpl never.
Global Arguments N.pow : simpl never.
Global Arguments N.eqb : simpl never.
Global Arguments N.ltb : simpl never.
Global Arguments N.leb : simpl never.
Global Arguments N.to_nat : simpl never.
Global Arguments N.of_nat : simpl never.
Global Arguments Z.add : simpl never.
Global Arguments Z.sub : simpl never.
Global Arguments Z.mul : simpl never.

Ltac zdm := Z.div_mod_to_equations; lia.

(** ** Bytes *)

Lemma b2n_lt b : (b2n b < 256)%N.
Proof. unfold b2n. pose proof (Byte.to_N_bounded b). lia. Qed.

Lemma n2b_b2n b : n2b (b2n b) = b.
Proof.
  unfold n2b. rewrite N.mod_small by apply b2n_lt.
  unfold b2n. by rewrite Byte.of_to_N.
Qed.

Lemma b2n_n2b n : b2n (n2b n) = (n mod 256)%N.
Proof.
  unfold n2b. destruct (Byte.of_N (n mod 256)) as [b|] eqn:E.
  - apply Byte.to_of_N in E. exact E.
  - apply Byte.of_N_None_iff in E.
    pose proof (N.mod_lt n 256). lia.
Qed.

Lemma b2n_n2b_small n : (n < 256)%N -> b2n (n2b n) = n.
Proof. intros. rewrite b2n_n2b. by apply N.mod_small. Qed.

Lemma b2n_inj a b : b2n a = b2n b -> a = b.
Proof. intros E. rewrite <-(n2b_b2n a), <-(n2b_b2n b). by rewrite E. Qed.

(** ** Lengths *)

Lemma lenN_nil {A} : lenN (@nil A) = 0%N.
Proof. reflexivity. Qed.

Lemma lenN_cons {A} (x : A) l : lenN (x :: l) = (1 + lenN l)%N.
Proof. unfold lenN. simpl. lia. Qed.

Lemma lenN_one {A} (x : A) : lenN [x] = 1%N.
Proof. done. Qed.

Lemma lenN_app {A} (l1 l2 : list A) : lenN (l1 ++ l2) = (lenN l1 + lenN l2)%N.
Proof. unfold lenN. rewrite app_length. lia. Qed.

Lemma lenN_0 {A} (l : list A) : lenN l = 0%N -> l = [].
Proof. destruct l; [done|]. rewrite lenN_cons. lia. Qed.

Lemma lenN_pos {A} (l : list A) : l <> [] -> (0 < lenN l)%N.
Proof. destruct l; [done|]. rewrite lenN_cons. lia. Qed.

Lemma lenN_insert (l : bytes) i x : lenN (<[i:=x]> l) = lenN l.
Proof. unfold lenN. by rewrite insert_length. Qed.

Lemma lenN_nat {A} (l : list A) : N.to_nat (lenN l) = length l.
Proof. unfold lenN. lia. Qed.

(** ** Big-endian integers *)

Lemma be_enc_len k n : length (be_enc k n) = k.
Proof.
  revert n. induction k; intros; [done|]. cbn [be_enc].
  rewrite app_length, IHk. simpl. lia.
Qed.

Lemma be_enc_lenN k n : lenN (be_enc k n) = N.of_nat k.
Proof. unfold lenN. by rewrite be_enc_len. Qed.

Lemma be_dec_app l1 l2 :
  be_dec (l1 ++ l2) = (be_dec l1 * 256 ^ lenN l2 + be_dec l2)%N.
Proof.
  unfold be_dec. rewrite fold_left_app.
  assert (H: forall l acc, (fold_left (fun acc b => acc * 256 + b2n b) l acc
          = acc * 256 ^ lenN l + fold_left (fun acc b => acc * 256 + b2n b) l 0)%N).
  { induction l as [|x l IH]; intros acc.
    - simpl. rewrite lenN_nil. change (256 ^ 0)%N with 1%N. lia.
    - cbn [fold_left]. rewrite IH, (IH (0 * 256 + b2n x)%N), lenN_cons.
      rewrite N.pow_add_r. change (256 ^ 1)%N with 256%N. lia. }
  rewrite H. reflexivity.
Qed.

Lemma be_dec_single b : be_dec [b] = b2n b.
Proof. unfold be_dec. simpl. lia. Qed.

Lemma be_dec_lt l : (be_dec l < 256 ^ lenN l)%N.
Proof.
  induction l as [|x l IH] using rev_ind.
  - reflexivity.
  - rewrite be_dec_app, be_dec_single, lenN_app, lenN_cons, lenN_nil.
    change (1 + 0)%N with 1%N.
    rewrite N.pow_add_r. change (256 ^ 1)%N with 256%N.
    pose proof (b2n_lt x). nia.
Qed.

Lemma be_dec_enc k n : be_dec (be_enc k n) = (n mod 256 ^ N.of_nat k)%N.
Proof.
  revert n. induction k; intros n.
  - change (256 ^ N.of_nat 0)%N with 1%N. rewrite N.mod_1_r. done.
  - cbn [be_enc]. rewrite be_dec_app, IHk, be_dec_single, b2n_n2b.
    change (lenN [n2b n]) with 1%N. change (256 ^ 1)%N with 256%N.
    replace (N.of_nat (S k)) with (1 + N.of_nat k)%N by lia.
    rewrite N.pow_add_r. change (256 ^ 1)%N with 256%N.
    assert (256 ^ N.of_nat k <> 0)%N by (apply N.pow_nonzero; lia).
    rewrite N.mod_mul_r by lia. rewrite (N.mul_comm _ 256). apply N.add_comm.
Qed.

Lemma be_enc_dec k l : length l = k -> be_enc k (be_dec l) = l.
Proof.
  revert l. induction k; intros l Hl.
  - by destruct l.
  - destruct l as [|x l] using rev_ind; [done|].
    rewrite app_length in Hl. cbn in Hl.
    cbn [be_enc]. rewrite be_dec_app, be_dec_single.
    change (lenN [x]) with 1%N. change (256 ^ 1)%N with 256%N.
    pose proof (b2n_lt x).
    replace ((be_dec l * 256 + b2n x) / 256)%N with (be_dec l).
    2:{ rewrite N.div_add_l by lia. rewrite N.div_small by lia. lia. }
    rewrite IHk by lia. f_equal. f_equal.
    apply b2n_inj. rewrite b2n_n2b.
    rewrite N.add_comm, N.mod_add by lia. by apply N.mod_small.
Qed.

Lemma be_enc_inj k a b :
  (a < 256 ^ N.of_nat k)%N -> (b < 256 ^ N.of_nat k)%N ->
  be_enc k a = be_enc k b -> a = b.
Proof.
  intros Ha Hb E. apply (f_equal be_dec) in E.
  rewrite !be_dec_enc, !N.mod_small in E by done. done.
Qed.

Lemma pow256_1 : (256 ^ N.of_nat 1 = 256)%N. Proof. reflexivity. Qed.
Lemma pow256_2 : (256 ^ N.of_nat 2 = u16_mod)%N. Proof. reflexivity. Qed.
Lemma pow256_4 : (256 ^ N.of_nat 4 = u32_mod)%N. Proof. reflexivity. Qed.
Lemma pow256_8 : (256 ^ N.of_nat 8 = u64_mod)%N. Proof. reflexivity. Qed.

Lemma be4 n : (n < u32_mod)%N -> be_dec (be_enc 4 n) = n.
Proof. intros. rewrite be_dec_enc, pow256_4. by apply N.mod_small. Qed.
Lemma be2 n : (n < u16_mod)%N -> be_dec (be_enc 2 n) = n.
Proof. intros. rewrite be_dec_enc, pow256_2. by apply N.mod_small. Qed.
Lemma be8 n : (n < u64_mod)%N -> be_dec (be_enc 8 n) = n.
Proof. intros. rewrite be_dec_enc, pow256_8. by apply N.mod_small. Qed.

(** ** 64-bit signed integers *)

Lemma u64_of_i64_lt z : (u64_of_i64 z < u64_mod)%N.
Proof.
  unfold u64_of_i64, u64_mod, i64_mod.
  pose proof (Z.mod_pos_bound z 18446744073709551616). lia.
Qed.

Lemma i64_of_u64_of_i64 z : i64_of_u64 (u64_of_i64 z) = i64_wrap z.
Proof.
  unfold i64_of_u64, u64_of_i64, i64_wrap, i64_mod, i64_half.
  pose proof (Z.mod_pos_bound z 18446744073709551616).
  rewrite Z2N.id by lia.
  destruct (Z.ltb_spec (z mod 18446744073709551616) 9223372036854775808); zdm.
Qed.

Lemma i64_wrap_id z : i64_range z -> i64_wrap z = z.
Proof. unfold i64_range, i64_wrap, i64_half, i64_mod. intros. zdm. Qed.

Lemma i64_wrap_range z : i64_range (i64_wrap z).
Proof. unfold i64_range, i64_wrap, i64_half, i64_mod. zdm. Qed.

Lemma i64_enc_len z : length (i64_enc z) = 8.
Proof. apply be_enc_len. Qed.

Lemma i64_dec_enc z : i64_range z -> i64_dec (i64_enc z) = z.
Proof.
  intros. unfold i64_dec, i64_enc. rewrite be8 by apply u64_of_i64_lt.
  rewrite i64_of_u64_of_i64. by apply i64_wrap_id.
Qed.

Lemma i64_of_u64_range n : (n < u64_mod)%N -> i64_range (i64_of_u64 n).
Proof.
  unfold u64_mod, i64_range, i64_of_u64, i64_half, i64_mod. intros.
  destruct (Z.ltb_spec (Z.of_N n) 9223372036854775808); lia.
Qed.

Lemma i64_dec_range l : length l = 8 -> i64_range (i64_dec l).
Proof.
  intros H. apply i64_of_u64_range. pose proof (be_dec_lt l) as L.
  unfold lenN in L. rewrite H in L. exact L.
Qed.

Lemma i64_checked_ok dbg z : i64_range z -> i64_checked dbg z = Ok z.
Proof.
  unfold i64_range, i64_checked. intros [? ?].
  destruct (Z.leb_spec (- i64_half) z); [|lia].
  destruct (Z.ltb_spec z i64_half); [|lia]. done.
Qed.

Lemma i64_checked_out dbg z :
  ~ i64_range z -> i64_checked dbg z = if dbg then Panic else Ok (i64_wrap z).
Proof.
  unfold i64_range, i64_checked. intros H.
  destruct (Z.leb_spec (- i64_half) z); [|done].
  destruct (Z.ltb_spec z i64_half); [lia|done].
Qed.

Lemma i64_range_dec z : {i64_range z} + {~ i64_range z}.
Proof.
  unfold i64_range.
  destruct (Z_le_dec (- i64_half) z), (Z_lt_dec z i64_half);
    (left; lia) || (right; lia).
Qed.

Lemma i64_checked_range dbg z z' : i64_checked dbg z = Ok z' -> i64_range z'.
Proof.
  destruct (i64_range_dec z) as [R|R].
  - rewrite i64_checked_ok by done. by intros [= <-].
  - rewrite i64_checked_out by done. destruct dbg; [done|].
    intros [= <-]. apply i64_wrap_range.
Qed.

(** ** Slices *)

Lemma get_range_app_mid (p m s : bytes) a b :
  a = lenN p -> b = (lenN p + lenN m)%N ->
  get_range (p ++ m ++ s) a b = Some m.
Proof.
  intros -> ->. unfold get_range.
  rewrite !lenN_app.
  replace ((lenN p <=? lenN p + lenN m)
           && (lenN p + lenN m <=? lenN p + (lenN m + lenN s)))%N with true by lia.
  f_equal. rewrite lenN_nat, drop_app.
  replace (N.to_nat (lenN p + lenN m - lenN p)) with (length m)
    by (unfold lenN; lia).
  by rewrite take_app.
Qed.

Lemma get_range_some l a b r :
  get_range l a b = Some r ->
  (a <= b)%N /\ (b <= lenN l)%N /\ lenN r = (b - a)%N /\
  r = take (N.to_nat (b - a)) (drop (N.to_nat a) l).
Proof.
  unfold get_range. destruct (N.leb_spec a b); [|done].
  destruct (N.leb_spec b (lenN l)); [|done]. cbn. intros [= <-].
  repeat split; try lia.
  unfold lenN in *. rewrite take_length, drop_length. lia.
Qed.

Lemma get_range_none l a b :
  get_range l a b = None -> (b < a)%N \/ (lenN l < b)%N.
Proof.
  unfold get_range. destruct (N.leb_spec a b); [|lia].
  destruct (N.leb_spec b (lenN l)); [done|lia].
Qed.

Lemma get_range_is_some l a b :
  (a <= b)%N -> (b <= lenN l)%N -> exists r, get_range l a b = Some r.
Proof.
  intros. unfold get_range.
  replace ((a <=? b) && (b <=? lenN l))%N with true by lia. eauto.
Qed.

Lemma get_range_too_far l a b : (lenN l < b)%N -> get_range l a b = None.
Proof.
  intros. unfold get_range.
  replace ((a <=? b) && (b <=? lenN l))%N with false by lia. done.
Qed.

(** Growing the buffer does not change what was readable. *)
Lemma get_range_app l l' a b r :
  get_range l a b = Some r -> get_range (l ++ l') a b = Some r.
Proof.
  intros H. pose proof (get_range_some _ _ _ _ H) as (H1 & H2 & H3 & ->).
  unfold get_range. rewrite lenN_app.
  replace ((a <=? b) && (b <=? lenN l + lenN l'))%N with true by lia.
  f_equal. unfold lenN in *.
  rewrite drop_app_le by lia.
  rewrite take_app_le; [done|]. rewrite drop_length. lia.
Qed.

Lemma get_at_some {A} (l : list A) i x : get_at l i = Some x -> (i < lenN l)%N.
Proof. unfold get_at. by destruct (N.ltb_spec i (lenN l)). Qed.

Lemma get_at_none {A} (l : list A) i : get_at l i = None -> (lenN l <= i)%N.
Proof.
  unfold get_at. destruct (N.ltb_spec i (lenN l)); [|done].
  intros H'. apply lookup_ge_None in H'. unfold lenN in *. lia.
Qed.

Lemma get_at_lookup {A} (l : list A) i : get_at l i = l !! N.to_nat i.
Proof.
  unfold get_at. destruct (N.ltb_spec i (lenN l)); [done|].
  symmetry. apply lookup_ge_None. unfold lenN in *. lia.
Qed.

Lemma get_at_app {A} (l l' : list A) i x :
  get_at l i = Some x -> get_at (l ++ l') i = Some x.
Proof. rewrite !get_at_lookup. apply lookup_app_l_Some. Qed.

Lemma get_at_mid {A} (p : list A) x s i :
  i = lenN p -> get_at (p ++ x :: s) i = Some x.
Proof.
  intros ->. rewrite get_at_lookup, lenN_nat.
  by apply list_lookup_middle.
Qed.

(** ** [starts_with] *)

Lemma starts_with_spec l p : starts_with l p = true <-> exists r, l = p ++ r.
Proof.
  revert l. induction p as [|x p IH]; intros l; simpl.
  - split; [intros _; by exists l|done].
  - destruct l as [|y l].
    + split; [done|]. intros [r Hr]. discriminate.
    + rewrite andb_true_iff, IH. split.
      * intros [E [r ->]]. apply Byte.byte_dec_bl in E. subst. eauto.
      * intros [r [= -> ->]]. split; [|eauto]. by apply Byte.byte_dec_lb.
Qed.

(** ** Machine arithmetic *)

Lemma uadd_ok m dbg a b : (a + b < m)%N -> uadd m dbg a b = Ok (a + b)%N.
Proof. intros. unfold uadd. by replace (a + b <? m)%N with true by lia. Qed.

Lemma uadd_release m a b : exists n, uadd m false a b = Ok n.
Proof. unfold uadd. destruct (a + b <? m)%N; eauto. Qed.

Lemma usub_ok m dbg a b : (b <= a)%N -> usub m dbg a b = Ok (a - b)%N.
Proof. intros. unfold usub. by replace (b <=? a)%N with true by lia. Qed.

Lemma uadd_lt m dbg a b n : (m <> 0)%N -> uadd m dbg a b = Ok n -> (n < m)%N.
Proof.
  intros Hm. unfold uadd. destruct (N.ltb_spec (a + b) m).
  - by intros [= <-].
  - destruct dbg; [done|]. intros [= <-]. by apply N.mod_lt.
Qed.

Lemma as_u32_small n : (n < u32_mod)%N -> as_u32 n = n.
Proof. apply N.mod_small. Qed.
Lemma as_u16_small n : (n < u16_mod)%N -> as_u16 n = n.
Proof. apply N.mod_small. Qed.
Lemma as_u8_small n : (n < u8_mod)%N -> as_u8 n = n.
Proof. apply N.mod_small. Qed.
Lemma as_u32_lt n : (as_u32 n < u32_mod)%N.
Proof. by apply N.mod_lt. Qed.
Lemma as_u16_lt n : (as_u16 n < u16_mod)%N.
Proof. by apply N.mod_lt. Qed.

(** ** Environments *)

Lemma env_std_ok dbg : env_ok (env_std dbg).
Proof. split; intros; reflexivity. Qed.

Lemma map_iter_size e m : env_ok e -> length (map_iter e m) = size m.
Proof. intros [H _]. rewrite (H m). reflexivity. Qed.

Lemma set_iter_size e s : env_ok e -> length (set_iter e s) = size s.
Proof. intros [_ H]. rewrite (H s). reflexivity. Qed.

Lemma map_iter_nodup e m : env_ok e -> NoDup (map_iter e m).*1.
Proof. intros [H _]. rewrite H. apply NoDup_fst_map_to_list. Qed.

Lemma set_iter_nodup e s : env_ok e -> NoDup (set_iter e s).
Proof. intros [_ H]. rewrite H. apply NoDup_elements. Qed.

Lemma map_iter_elem e m k v :
  env_ok e -> (k, v) ∈ map_iter e m <-> m !! k = Some v.
Proof. intros [H _]. rewrite H. apply elem_of_map_to_list. Qed.

Lemma set_iter_elem e s x : env_ok e -> x ∈ set_iter e s <-> x ∈ s.
Proof. intros [_ H]. rewrite H. apply elem_of_elements. Qed.

Global Arguments be_enc : simpl never.
Global Arguments be_dec : simpl never.
Global Arguments lenN : simpl never.
Global Arguments n2b : simpl never.
Global Arguments b2n : simpl never.
