(** Values at and beyond the widths of the response format: exactly which are refused, which come back,
    and which are corrupted (C15). *)
From Verif Require Import Bytes BytesFacts Utf8 Value CommandId Response RespContext
  WireSpec IdsFacts ResponseFacts RespContextFacts RespProps RespExact.
From stdpp Require Import gmap list.
From Coq Require Import NArith ZArith Lia.
From Coq Require Import ZifyBool ZifyNat ZifyN.

(** ** Adding up in 32 bits *)

Lemma be_enc_mod k n : be_enc k (n mod 256 ^ N.of_nat k) = be_enc k n.
Proof. rewrite <- be_dec_enc. apply be_enc_dec. apply be_enc_len. Qed.

Lemma be_enc_mod4 n : be_enc 4 (n mod u32_mod) = be_enc 4 n.
Proof. exact (be_enc_mod 4 n). Qed.

Lemma be_enc_mod2 n : be_enc 2 (n mod u16_mod) = be_enc 2 n.
Proof. exact (be_enc_mod 2 n). Qed.

Lemma uadd_eq m dbg a b : (m <> 0)%N ->
  uadd m dbg a b = if dbg && (m <=? a + b)%N then Panic else Ok ((a + b) mod m)%N.
Proof.
  intros Hm. unfold uadd. destruct (N.ltb_spec (a + b) m).
  - replace (m <=? a + b)%N with false by lia. rewrite andb_false_r. by rewrite N.mod_small.
  - replace (m <=? a + b)%N with true by lia. rewrite andb_true_r. by destruct dbg.
Qed.

(** Adding [f x] for every item, step by step, is adding them all. *)
Notation sumN := (fold_right N.add 0%N).

Lemma u32_pos : u32_mod <> 0%N. Proof. done. Qed.
Lemma u16_pos : u16_mod <> 0%N. Proof. done. Qed.

Lemma sumN_perm {A} (f : A -> N) l1 l2 : l1 ≡ₚ l2 -> sumN (map f l1) = sumN (map f l2).
Proof. induction 1; cbn; lia. Qed.

Lemma map_len_loop_eq dbg acc l :
  (acc < u32_mod)%N ->
  let total := (acc + sumN (map (fun kv : bytes * bytes => 5 + lenN kv.1 mod u32_mod + lenN kv.2 mod u32_mod) l))%N in
  map_len_loop dbg acc l = if dbg && (u32_mod <=? total)%N then Panic else Ok (total mod u32_mod)%N.
Proof.
  cbv zeta. revert acc. induction l as [|[k v] l IH]; intros acc Ha; cbn [map_len_loop map fold_right fst snd].
  - rewrite N.add_0_r. replace (u32_mod <=? acc)%N with false by lia. rewrite andb_false_r.
    by rewrite N.mod_small.
  - unfold as_u32, u32_add. rewrite !uadd_eq by exact u32_pos.
    set (a := (lenN k mod u32_mod)%N). set (b := (lenN v mod u32_mod)%N).
    set (t := sumN _).
    destruct dbg; cbn [andb].
    + destruct (N.leb_spec u32_mod (1 + a)) as [H1|H1]; cbn [obind].
      { by replace (u32_mod <=? acc + (5 + a + b + t))%N with true by lia. }
      rewrite (N.mod_small (1 + a)) by done. rewrite uadd_eq by exact u32_pos. cbn [andb].
      destruct (N.leb_spec u32_mod (1 + a + 4)) as [H2|H2]; cbn [obind].
      { by replace (u32_mod <=? acc + (5 + a + b + t))%N with true by lia. }
      rewrite (N.mod_small (1 + a + 4)) by done. rewrite uadd_eq by exact u32_pos. cbn [andb].
      destruct (N.leb_spec u32_mod (1 + a + 4 + b)) as [H3|H3]; cbn [obind].
      { by replace (u32_mod <=? acc + (5 + a + b + t))%N with true by lia. }
      rewrite (N.mod_small (1 + a + 4 + b)) by done. rewrite uadd_eq by exact u32_pos. cbn [andb].
      destruct (N.leb_spec u32_mod (acc + (1 + a + 4 + b))) as [H4|H4]; cbn [obind].
      { by replace (u32_mod <=? acc + (5 + a + b + t))%N with true by lia. }
      rewrite (N.mod_small (acc + _)) by done. rewrite IH by done. fold t.
      by replace (acc + (1 + a + 4 + b) + t)%N with (acc + (5 + a + b + t))%N by lia.
    + cbn [obind]. rewrite !uadd_eq by exact u32_pos. cbn [andb obind].
      rewrite !uadd_eq by exact u32_pos. cbn [andb obind].
      rewrite !uadd_eq by exact u32_pos. cbn [andb obind].
      rewrite IH by (by apply N.mod_lt). cbn [andb]. fold t. f_equal.
      rewrite (N.add_mod_idemp_l (1 + a)), (N.add_mod_idemp_l (1 + a + 4)) by exact u32_pos.
      rewrite (N.add_mod_idemp_r acc), N.add_mod_idemp_l by exact u32_pos. f_equal. lia.
Qed.

Lemma set_len_loop_eq dbg acc l :
  (acc < u32_mod)%N ->
  let total := (acc + sumN (map (fun x : bytes => 2 + lenN x mod u32_mod) l))%N in
  set_len_loop dbg acc l = if dbg && (u32_mod <=? total)%N then Panic else Ok (total mod u32_mod)%N.
Proof.
  cbv zeta. revert acc. induction l as [|x l IH]; intros acc Ha; cbn [set_len_loop map fold_right].
  - rewrite N.add_0_r. replace (u32_mod <=? acc)%N with false by lia. rewrite andb_false_r.
    by rewrite N.mod_small.
  - unfold as_u32, u32_add. rewrite !uadd_eq by exact u32_pos.
    set (a := (lenN x mod u32_mod)%N). set (t := sumN _).
    destruct dbg; cbn [andb].
    + destruct (N.leb_spec u32_mod (2 + a)) as [H1|H1]; cbn [obind].
      { by replace (u32_mod <=? acc + (2 + a + t))%N with true by lia. }
      rewrite (N.mod_small (2 + a)) by done. rewrite uadd_eq by exact u32_pos. cbn [andb].
      destruct (N.leb_spec u32_mod (acc + (2 + a))) as [H4|H4]; cbn [obind].
      { by replace (u32_mod <=? acc + (2 + a + t))%N with true by lia. }
      rewrite (N.mod_small (acc + _)) by done. rewrite IH by done. fold t.
      by replace (acc + (2 + a) + t)%N with (acc + (2 + a + t))%N by lia.
    + cbn [obind]. rewrite !uadd_eq by exact u32_pos. cbn [andb obind].
      rewrite IH by (by apply N.mod_lt). cbn [andb]. fold t. f_equal.
      rewrite (N.add_mod_idemp_r acc), N.add_mod_idemp_l by exact u32_pos. f_equal. lia.
Qed.

Lemma write_list_loop_eq dbg to n c l :
  (n < u32_mod)%N -> (c < u16_mod)%N ->
  let total := (n + sumN (map (fun x : bytes => 4 + lenN x mod u32_mod) l))%N in
  write_list_loop dbg to n c l =
  if dbg && ((u32_mod <=? total)%N || (u16_mod <=? c + lenN l)%N) then Panic
  else Ok (to ++ enc_items l, total mod u32_mod, (c + lenN l) mod u16_mod)%N.
Proof.
  cbv zeta. revert to n c. induction l as [|x l IH]; intros to n c Ha Hc;
    cbn [write_list_loop map fold_right].
  - change (lenN (@nil bytes)) with 0%N. rewrite !N.add_0_r. replace (u32_mod <=? n)%N with false by lia.
    replace (u16_mod <=? c)%N with false by lia. rewrite andb_false_r. cbn [concat].
    rewrite app_nil_r. by rewrite !N.mod_small.
  - rewrite lenN_cons. unfold as_u32, u32_add. rewrite uadd_eq by exact u16_pos.
    set (a := (lenN x mod u32_mod)%N). set (t := sumN _).
    assert (He : be_enc 4 a = be_enc 4 (lenN x)) by apply be_enc_mod4.
    destruct dbg; cbn [andb].
    + destruct (N.leb_spec u16_mod (c + 1)) as [H0|H0]; cbn [obind].
      { replace (u16_mod <=? c + (1 + lenN l))%N with true by lia. by rewrite orb_true_r. }
      rewrite (N.mod_small (c + 1)) by done. rewrite uadd_eq by exact u32_pos. cbn [andb].
      destruct (N.leb_spec u32_mod (4 + a)) as [H1|H1]; cbn [obind].
      { by replace (u32_mod <=? n + (4 + a + t))%N with true by lia. }
      rewrite (N.mod_small (4 + a)) by done. rewrite uadd_eq by exact u32_pos. cbn [andb].
      destruct (N.leb_spec u32_mod (n + (4 + a))) as [H4|H4]; cbn [obind].
      { by replace (u32_mod <=? n + (4 + a + t))%N with true by lia. }
      rewrite (N.mod_small (n + _)) by done. rewrite IH by done. fold t.
      replace (n + (4 + a) + t)%N with (n + (4 + a + t))%N by lia.
      replace (c + 1 + lenN l)%N with (c + (1 + lenN l))%N by lia. rewrite He.
      cbn [concat map]. by rewrite <-!app_assoc.
    + cbn [obind]. rewrite !uadd_eq by exact u32_pos. cbn [andb obind].
      rewrite !uadd_eq by exact u32_pos. cbn [andb obind].
      rewrite IH by (by apply N.mod_lt). cbn [andb]. fold t.
      rewrite (N.add_mod_idemp_r n), !N.add_mod_idemp_l by done.
      replace (n + (4 + a) + t)%N with (n + (4 + a + t))%N by lia.
      replace (c + 1 + lenN l)%N with (c + (1 + lenN l))%N by lia. rewrite He.
      cbn [concat map]. by rewrite <-!app_assoc.
Qed.

(** ** What is written is always the frame, its fields cut to their widths *)

Lemma map_entries_eq l : concat (map map_entry l) = enc_pairs l.
Proof.
  f_equal. apply map_ext. intros [k v]. unfold map_entry. cbn [fst snd]. unfold as_u32.
  by rewrite be_enc_mod4, be_enc_1.
Qed.

Lemma set_entries_eq l : concat (map set_entry l) = enc_set l.
Proof. f_equal. apply map_ext. intros x. unfold set_entry, as_u16. by rewrite be_enc_mod2. Qed.

(** The sum of the lengths as written, modulo 2^32. *)
Lemma sum_mod {A} (f g : A -> N) l :
  (forall x, (f x mod u32_mod = g x mod u32_mod)%N) ->
  (sumN (map f l) mod u32_mod = sumN (map g l) mod u32_mod)%N.
Proof.
  intros H. induction l as [|x l IH]; [done|]. cbn [map fold_right].
  rewrite (N.add_mod (f x)), (N.add_mod (g x)) by exact u32_pos. by rewrite H, IH.
Qed.

Lemma lenN_concat_sum {A} (f : A -> bytes) l : lenN (concat (map f l)) = sumN (map (fun x => lenN (f x)) l).
Proof. induction l as [|x l IH]; [done|]. cbn [map concat fold_right]. by rewrite lenN_app, IH. Qed.

Lemma total_mod n k a b : (a mod u32_mod = b mod u32_mod)%N -> (n = k)%N ->
  ((n + a) mod u32_mod = (k + b) mod u32_mod)%N.
Proof. intros H ->. rewrite (N.add_mod k a), (N.add_mod k b) by exact u32_pos. by rewrite H. Qed.

Lemma copy_to_exact e r to :
  env_ok e ->
  (refused (debug e) r /\ copy_to e r to = Panic) \/
  (~ refused (debug e) r /\ copy_to e r to = Ok (to ++ resp_frame e r)).
Proof.
  intros He.
  assert (Hneed : forall c : bool, copy_to e r to = (if c then Panic else Ok (to ++ resp_frame e r)) ->
    (c = true <-> refused (debug e) r) ->
    (refused (debug e) r /\ copy_to e r to = Panic) \/
    (~ refused (debug e) r /\ copy_to e r to = Ok (to ++ resp_frame e r))).
  { intros [] Hc Hr; [left|right]; rewrite Hc; split; try done; [by apply Hr|]. intros H%Hr. done. }
  destruct r as [err|err|v].
  - apply (Hneed false); [done|]. split; [done|]. intros [_ [H|[]]]. exfalso. by apply H.
  - apply (Hneed false); [done|]. split; [done|]. intros [_ [H|[]]]. exfalso. by apply H.
  - destruct v as [x|bs|n|z|l|m|st|str].
    + apply (Hneed false); [done|]. split; [done|]. intros [_ [H|[]]]. exfalso. by apply H.
    + apply (Hneed (debug e && (u32_mod <=? added_up (RValue (VBytes bs))))%N).
      2:{ unfold refused. rewrite andb_true_iff, N.leb_le. intuition. }
      cbn [copy_to write_value added_up]. unfold write_bytes, as_u32, u32_add.
      rewrite uadd_eq by exact u32_pos. destruct (debug e && _); [done|]. cbn [obind].
      unfold resp_frame, frame. cbn [resp_payload resp_kind]. unfold payload_bytes.
      rewrite N.add_mod_idemp_r, !be_enc_mod4 by exact u32_pos.
      rewrite lenN_app, be_enc_lenN.
      by replace (1 + (N.of_nat 4 + _))%N with (5 + lenN bs)%N by lia.
    + apply (Hneed false); [done|]. split; [done|]. intros [_ [H|[]]]. exfalso. by apply H.
    + apply (Hneed false); [|split; [done|intros [_ [H|[]]]; exfalso; by apply H]].
      cbn. unfold write_int, resp_frame, frame. cbn. unfold i64_enc. by rewrite be_enc_lenN.
    + apply (Hneed (debug e && ((u32_mod <=? added_up (RValue (VList l))) || (u16_mod <=? lenN l))))%N.
      2:{ unfold refused. rewrite andb_true_iff, orb_true_iff, !N.leb_le. intuition. }
      cbn [copy_to write_value added_up]. unfold write_list.
      rewrite write_list_loop_eq by done. rewrite !N.add_0_l.
      destruct (debug e && _); [done|]. cbn [obind]. rewrite <-!app_assoc.
      rewrite patch_app; [|done|by rewrite be_enc_len].
      set (h := be_enc 4 _).
      rewrite (app_assoc to h), (app_assoc (to ++ h) [rt_byte RTList]).
      rewrite patch_app.
      * unfold resp_frame, frame. cbn [resp_payload resp_kind]. unfold payload_list.
        rewrite be_enc_mod2, <-!app_assoc. do 2 f_equal. f_equal. unfold h.
        rewrite <-(be_enc_mod4 (1 + _)). f_equal.
        rewrite lenN_app, be_enc_lenN, lenN_concat_sum, N.add_assoc.
        apply total_mod; [|done]. apply sum_mod. intros x. rewrite lenN_app, be_enc_lenN.
        by rewrite N.add_mod_idemp_r.
      * rewrite !lenN_app. unfold h. rewrite be_enc_lenN, lenN_one. lia.
      * by rewrite be_enc_len.
    + apply (Hneed (debug e && (u32_mod <=? added_up (RValue (VMap m))))%N).
      2:{ unfold refused. rewrite andb_true_iff, N.leb_le. intuition. }
      cbn [copy_to write_value added_up]. unfold write_map.
      rewrite map_len_loop_eq by done. rewrite (sumN_perm _ _ _ (proj1 He m)).
      destruct (debug e && _); [done|]. cbn [obind].
      unfold resp_frame, frame. cbn [resp_payload resp_kind]. unfold payload_map.
      rewrite map_entries_eq. unfold as_u16. rewrite be_enc_mod2.
      assert (lenN (map_iter e m) = N.of_nat (size m)) as ->.
      { unfold lenN. by rewrite map_iter_size. }
      do 3 f_equal. rewrite <-(be_enc_mod4 (1 + _)). f_equal.
      rewrite lenN_app, be_enc_lenN, lenN_concat_sum, N.add_assoc, (sumN_perm _ _ _ (proj1 He m)).
      apply total_mod; [|done]. apply sum_mod. intros [k v]. cbn [fst snd].
      rewrite !lenN_app, !be_enc_lenN. change (N.of_nat 1) with 1%N. change (N.of_nat 4) with 4%N.
      rewrite N.add_mod_idemp_r by exact u32_pos.
      replace (5 + lenN k mod u32_mod + lenN v)%N with (5 + lenN v + lenN k mod u32_mod)%N by lia.
      rewrite N.add_mod_idemp_r by exact u32_pos. f_equal. lia.
    + apply (Hneed (debug e && (u32_mod <=? added_up (RValue (VSet st))))%N).
      2:{ unfold refused. rewrite andb_true_iff, N.leb_le. intuition. }
      cbn [copy_to write_value added_up]. unfold write_set.
      rewrite set_len_loop_eq by done. rewrite (sumN_perm _ _ _ (proj2 He st)).
      destruct (debug e && _); [done|]. cbn [obind].
      unfold resp_frame, frame. cbn [resp_payload resp_kind]. unfold payload_set.
      rewrite set_entries_eq. unfold as_u16. rewrite be_enc_mod2.
      assert (lenN (set_iter e st) = N.of_nat (size st)) as ->.
      { unfold lenN. by rewrite set_iter_size. }
      do 3 f_equal. rewrite <-(be_enc_mod4 (1 + _)). f_equal.
      rewrite lenN_app, be_enc_lenN, lenN_concat_sum, N.add_assoc, (sumN_perm _ _ _ (proj2 He st)).
      apply total_mod; [|done]. apply sum_mod. intros x.
      rewrite !lenN_app, !be_enc_lenN. by rewrite N.add_mod_idemp_r.
    + apply (Hneed (debug e && (u32_mod <=? added_up (RValue (VString str))))%N).
      2:{ unfold refused. rewrite andb_true_iff, N.leb_le. intuition. }
      cbn [copy_to write_value added_up]. unfold write_str, as_u32, u32_add.
      rewrite uadd_eq by exact u32_pos. destruct (debug e && _); [done|]. cbn [obind].
      unfold resp_frame, frame. cbn [resp_payload resp_kind]. unfold payload_bytes.
      rewrite N.add_mod_idemp_r, !be_enc_mod4 by exact u32_pos.
      rewrite lenN_app, be_enc_lenN.
      by replace (1 + (N.of_nat 4 + _))%N with (5 + lenN str)%N by lia.
Qed.

(** ** What is decoded fits *)

Definition decoded_ok (dbg : bool) (r : response) : Prop :=
  parts_fit r /\ undecodable_empty dbg r = false.

Definition stage_ok (dbg : bool) (x : resp_ctx) : Prop :=
  match s_stage x with
  | STypeInit k n => match k with RTBytes | RTString => n = 4%N | _ => n = 2%N end
  | SBytes len | SString len => (len < u32_mod)%N
  | SList acc len =>
    (len < u16_mod)%N /\ (acc = [] \/ lenN acc < len)%N /\ forall y, y ∈ acc -> (lenN y < u32_mod)%N
  | SMap acc len =>
    (len < u16_mod)%N /\ (N.of_nat (size acc) < len)%N /\
    forall k v, acc !! k = Some v -> (lenN k < 256)%N /\ (lenN v < u32_mod)%N
  | SSet acc len =>
    (len < u16_mod)%N /\ (acc = ∅ \/ N.of_nat (size acc) < len)%N /\ forall y, y ∈ acc -> (lenN y < u16_mod)%N
  | _ => True
  end.

Definition answer_ok (dbg : bool) (x : resp_ctx) (g : stage_res) : Prop :=
  match g with
  | GContinue => stage_ok dbg x
  | GInstr (IConcluded r) => decoded_ok dbg r
  | _ => True
  end.

Lemma field_lt buf i n (h : bytes) :
  get_range buf i (i + n) = Some h -> (be_dec h < 256 ^ n)%N.
Proof.
  intros (_ & _ & Hl & _)%get_range_some. pose proof (be_dec_lt h) as H.
  replace n with (lenN h) by lia. done.
Qed.

Lemma range_len buf i n (h : bytes) : get_range buf i (i + n) = Some h -> lenN h = n.
Proof. intros (_ & _ & Hl & _)%get_range_some. lia. Qed.

Lemma ask_fits dbg x n x' g : ask x n = Ok (x', g) -> answer_ok dbg x' g.
Proof. intros (? & _ & _ & ->)%ask_ok. done. Qed.

Lemma step_fits dbg x buf x' g :
  stage_ok dbg x -> resp_step dbg x buf = Ok (x', g) -> answer_ok dbg x' g.
Proof.
  unfold stage_ok at 1, resp_step. intros Hx H.
  destruct (s_stage x) as [| |k rl| |len| | |acc len|acc len| | |acc len|len].
  all: unfold resp_stage_init, resp_stage_determine, resp_stage_type_init, resp_stage_boolean,
    resp_stage_bytes, resp_stage_float, resp_stage_integer, resp_stage_list, resp_stage_map,
    resp_stage_dispatch_error, resp_stage_parse_error, resp_stage_set, resp_stage_string in H.
  all: cbv zeta in H.
  - apply assert_then_ok in H. destruct (get_range buf 0 4); [|by eapply ask_fits].
    destruct (_ <? _)%N; [by eapply ask_fits|]. by injection H as <- <-.
  - apply assert_then_ok in H. destruct (get_at buf _); [|by eapply ask_fits].
    destruct (response_type_of_u8 _) as [k|]; [|by injection H as <- <-].
    injection H as <- <-. unfold answer_ok, stage_ok. cbn [s_stage]. by destruct k.
  - apply assert_then_ok in H. destruct (get_range buf _ _) as [h|] eqn:E; [|by eapply ask_fits].
    apply assert_then_ok in H. apply field_lt in E.
    destruct k; subst rl; try done.
    + injection H as <- <-. exact E.
    + injection H as <- <-. unfold answer_ok, stage_ok. cbn [s_stage]. split_and!; [exact E|by left|].
      intros y []%elem_of_nil.
    + destruct (N.eqb_spec (be_dec h) 0) as [E0|E0].
      * injection H as <- <-. split; [|done]. split; [by rewrite map_size_empty|].
        intros k v Hk. by rewrite lookup_empty in Hk.
      * injection H as <- <-. unfold answer_ok, stage_ok. cbn [s_stage]. split_and!; [exact E| |].
        -- rewrite map_size_empty. lia.
        -- intros k v Hk. by rewrite lookup_empty in Hk.
    + injection H as <- <-. unfold answer_ok, stage_ok. cbn [s_stage]. split_and!; [exact E|by left|].
      intros y []%elem_of_empty.
    + destruct (N.eqb_spec (be_dec h) 0) as [E0|E0]; injection H as <- <-; [by split|exact E].
  - apply assert_then_ok in H. destruct (get_at buf _); [|by eapply ask_fits]. by injection H as <- <-.
  - apply assert_then_ok in H. destruct (get_range buf _ _) as [bs|] eqn:E.
    2:{ apply assert_then_ok in H. by eapply ask_fits. }
    apply range_len in E. unfold assert_then, debug_assert in H.
    destruct (dbg && negb (negb (len =? 0)%N)) eqn:Ed; [done|]. cbn in H. injection H as <- <-.
    split; [cbn; lia|]. cbn. destruct bs; [|done]. change (lenN []) with 0%N in E. subst len.
    by destruct dbg.
  - apply assert_then_ok in H. destruct (get_range buf _ _); [|by eapply ask_fits]. by injection H as <- <-.
  - apply assert_then_ok in H. destruct (get_range buf _ _); [|by eapply ask_fits]. by injection H as <- <-.
  - destruct Hx as (Hlen & Hacc & Hy). do 2 apply assert_then_ok in H.
    destruct (get_range buf _ _) as [h|] eqn:E; [|by eapply ask_fits].
    destruct (get_range buf (s_idx x + 4) _) as [a|] eqn:E2; [|by eapply ask_fits].
    apply field_lt in E. apply range_len in E2. change (256 ^ 4)%N with u32_mod in E.
    assert (Hy' : forall y, y ∈ acc ++ [a] -> (lenN y < u32_mod)%N).
    { intros y [?| ->%elem_of_list_singleton]%elem_of_app; [auto|lia]. }
    destruct (N.ltb_spec (lenN (acc ++ [a])) len) as [El|El]; injection H as <- <-.
    + unfold answer_ok, stage_ok. cbn [s_stage]. split_and!; [done|by right|done].
    + split; [|by destruct acc]. split; [|done]. rewrite lenN_app, lenN_one in *.
      destruct Hacc as [->|?]; [done|]. lia.
  - destruct Hx as (Hlen & Hacc & Hy). do 2 apply assert_then_ok in H.
    destruct (get_range buf (s_idx x) _) as [h|] eqn:E; [|by eapply ask_fits].
    destruct (get_range buf (s_idx x + 1) _) as [k|] eqn:E2; [|by eapply ask_fits].
    match type of H with context [get_range buf ?i ?j] => destruct (get_range buf i j) as [h2|] eqn:E3 end;
      [|by eapply ask_fits].
    match type of H with context [get_range buf ?i ?j] => destruct (get_range buf i j) as [v|] eqn:E4 end;
      [|by eapply ask_fits].
    apply field_lt in E. apply range_len in E2. apply field_lt in E3. apply range_len in E4.
    change (256 ^ 1)%N with 256%N in E. change (256 ^ 4)%N with u32_mod in E3.
    assert (Hy' : forall k' v', <[k:=v]> acc !! k' = Some v' -> (lenN k' < 256)%N /\ (lenN v' < u32_mod)%N).
    { intros k' v' [[<- <-]|[_ Hk]]%lookup_insert_Some; [lia|by apply Hy in Hk]. }
    destruct (N.ltb_spec (N.of_nat (size (<[k:=v]> acc))) len) as [El|El]; injection H as <- <-.
    + unfold answer_ok, stage_ok. cbn [s_stage]. split_and!; [done|lia|done].
    + split; [|done]. split; [|done].
      destruct (acc !! k) as [v0|] eqn:Ek.
      * rewrite map_size_insert_Some in El |- * by done. lia.
      * rewrite map_size_insert_None in El |- * by done. lia.
  - apply assert_then_ok in H. destruct (get_at buf _); [|by eapply ask_fits].
    destruct (dispatch_error_of_u8 _); [|done]. by injection H as <- <-.
  - apply assert_then_ok in H. destruct (get_at buf _); [|by eapply ask_fits].
    destruct (parse_error_of_u8 _); [|done]. by injection H as <- <-.
  - destruct Hx as (Hlen & Hacc & Hy). do 2 apply assert_then_ok in H.
    destruct (get_range buf _ _) as [h|] eqn:E; [|by eapply ask_fits].
    destruct (get_range buf (s_idx x + 2) _) as [a|] eqn:E2; [|by eapply ask_fits].
    apply field_lt in E. apply range_len in E2. change (256 ^ 2)%N with u16_mod in E.
    assert (Hy' : forall y, y ∈ {[a]} ∪ acc -> (lenN y < u16_mod)%N).
    { intros y [->%elem_of_singleton|?]%elem_of_union; [lia|auto]. }
    destruct (N.ltb_spec (N.of_nat (size ({[a]} ∪ acc))) len) as [El|El]; injection H as <- <-.
    + unfold answer_ok, stage_ok. cbn [s_stage]. split_and!; [done|right; lia|done].
    + assert (Hs : (size ({[a]} ∪ acc) <= 1 + size acc)%nat).
      { pose proof (size_union_alt {[a]} acc) as Hu. rewrite size_singleton in Hu.
        pose proof (subseteq_size (acc ∖ {[a]}) acc ltac:(set_solver)). lia. }
      split; [split; [|done]|].
      * destruct Hacc as [->|?]; [|lia]. rewrite size_empty in Hs. unfold u16_mod. lia.
      * cbn. destruct (Nat.eqb_spec (size ({[a]} ∪ acc)) 0) as [E0|]; [|done].
        apply size_empty_inv in E0. exfalso. set_solver.
  - do 2 apply assert_then_ok in H. destruct (get_range buf _ _) as [bs|] eqn:E; [|by eapply ask_fits].
    apply range_len in E. unfold from_utf8 in H. destruct (utf8_valid bs); injection H as <- <-; [|done].
    split; [|done]. cbn. lia.
Qed.

Lemma feed_fits dbg buf x r :
  stage_ok dbg x -> (resp_feed dbg x buf).2 = PConcluded r -> decoded_ok dbg r.
Proof.
  revert x. apply (resp_feed_ind dbg buf (fun x =>
    stage_ok dbg x -> (resp_feed dbg x buf).2 = PConcluded r -> decoded_ok dbg r)).
  - intros x x' E IH Hx H. rewrite resp_feed_eq, E in H. apply IH; [|done].
    exact (step_fits _ _ _ _ _ Hx E).
  - intros x Hn Hx H. rewrite resp_feed_eq in H.
    destruct (resp_step dbg x buf) as [[x' [err|[r'|m]|]]|] eqn:E; try done.
    + injection H as <-. exact (step_fits _ _ _ _ _ Hx E).
    + by destruct (Hn x').
Qed.

(** ** C15 *)

Lemma c15_written e r to :
  env_ok e ->
  (copy_to e r to = Panic <-> refused (debug e) r) /\
  (forall out, copy_to e r to = Ok out -> out = to ++ resp_frame e r).
Proof.
  intros He. destruct (copy_to_exact e r to He) as [[Hr ->]|[Hr ->]]; split; try done.
  by intros out [= <-].
Qed.

Lemma c15_exactly e r msg s :
  env_ok e -> resp_wf r -> copy_to e r [] = Ok msg ->
  (snd (resp_feed (debug e) resp_ctx_new (msg ++ s)) = PConcluded r <->
   parts_fit r /\ undecodable_empty (debug e) r = false).
Proof.
  intros He Hwf Hc. destruct (copy_to_exact e r [] He) as [[_ Hc']|[_ Hc']]; rewrite Hc in Hc'; [done|].
  injection Hc' as ->. split.
  - intros H. by eapply (feed_fits _ _ resp_ctx_new).
  - intros [Hp Hu]. cbn [app]. by rewrite decode_parts.
Qed.
