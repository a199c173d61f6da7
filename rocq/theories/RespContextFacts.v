(** Lemmas about the response parser (C10, C12 - C16). *)
From Verif Require Import Bytes BytesFacts Utf8 Value CommandId Response RespContext
  WireSpec IdsFacts ResponseFacts.
From stdpp Require Import gmap list.
From Coq Require Import NArith ZArith Lia.
From Coq Require Import ZifyBool ZifyNat ZifyN.

(** ** The loop without fuel *)

Definition resp_rank (x : resp_ctx) : nat :=
  match s_stage x with
  | SInit => 4 | SDetermineType => 3 | STypeInit _ _ => 2 | _ => 1
  end.

Definition resp_measure (x : resp_ctx) (buf : bytes) : nat :=
  (length buf - N.to_nat (s_idx x) + resp_rank x)%nat.

Lemma assert_then_ok dbg c k r : assert_then dbg c k = Ok r -> k = Ok r.
Proof. unfold assert_then, debug_assert. by destruct (dbg && negb c). Qed.

Lemma assert_then_true dbg c k : c = true -> assert_then dbg c k = k.
Proof. intros ->. unfold assert_then, debug_assert. by rewrite andb_false_r. Qed.

Lemma assert_then_release c k : assert_then false c k = k.
Proof. done. Qed.

Lemma ask_ok x n x' r : ask x n = Ok (x', r) -> exists k, n = Ok k /\ x' = x /\ r = GInstr (IReadBytes k).
Proof. destruct n; cbn; [|done]. intros [= <- <-]. eauto. Qed.

Lemma ask_not_continue x n x' : ask x n <> Ok (x', GContinue).
Proof. by destruct n. Qed.

Lemma resp_step_measure dbg x buf x' :
  resp_step dbg x buf = Ok (x', GContinue) ->
  (resp_measure x' buf < resp_measure x buf)%nat.
Proof.
  unfold resp_step, resp_measure, resp_rank.
  destruct (s_stage x) as [| |k rl| |len| | |acc len|acc len| | |acc len|len] eqn:Es.
  - intros H%assert_then_ok. destruct (get_range buf 0 4).
    + cbn zeta in H. destruct (_ <? _)%N; [by apply ask_not_continue in H|]. injection H as <-. cbn. lia.
    + by apply ask_not_continue in H.
  - intros H%assert_then_ok. destruct (get_at buf (s_idx x)); [|done].
    destruct (response_type_of_u8 _) as [k|]; [|done]. injection H as <-.
    cbn. destruct k; lia.
  - intros H%assert_then_ok. destruct (get_range buf _ _); [|by apply ask_not_continue in H].
    apply assert_then_ok in H. cbn zeta in H. destruct k; try done.
    + injection H as <-. cbn. lia.
    + injection H as <-. cbn. lia.
    + destruct (be_dec _ =? 0)%N; [done|]. injection H as <-. cbn. lia.
    + injection H as <-. cbn. lia.
    + destruct (be_dec _ =? 0)%N; [done|]. injection H as <-. cbn. lia.
  - intros H%assert_then_ok. by destruct (get_at buf (s_idx x)).
  - intros H%assert_then_ok%assert_then_ok.
    destruct (get_range buf _ _); [done|by apply ask_not_continue in H].
  - intros H%assert_then_ok. by destruct (get_range buf _ _).
  - intros H%assert_then_ok. by destruct (get_range buf _ _).
  - intros H%assert_then_ok%assert_then_ok. cbn zeta in H.
    destruct (get_range buf (s_idx x) _) as [h|]; [|by apply ask_not_continue in H].
    destruct (get_range buf (s_idx x + 4) _) eqn:E; [|by apply ask_not_continue in H].
    destruct (_ <? len)%N; [|done]. injection H as <-. cbn.
    apply get_range_some in E as (E1 & E2 & _). unfold lenN in *. lia.
  - intros H%assert_then_ok%assert_then_ok. cbn zeta in H.
    destruct (get_range buf (s_idx x) _) as [h|]; [|by apply ask_not_continue in H].
    destruct (get_range buf (s_idx x + 1) _) eqn:E; [|by apply ask_not_continue in H].
    destruct (get_range buf (s_idx x + 1 + be_dec h) _) as [h2|] eqn:E2; [|by apply ask_not_continue in H].
    destruct (get_range buf (s_idx x + 1 + be_dec h + 4) _) eqn:E3; [|by apply ask_not_continue in H].
    destruct (_ <? len)%N; [|done]. injection H as <-. cbn.
    apply get_range_some in E3 as (E3 & E4 & _). unfold lenN in *. lia.
  - intros H%assert_then_ok. destruct (get_at buf (s_idx x)); [|done].
    by destruct (dispatch_error_of_u8 _).
  - intros H%assert_then_ok. destruct (get_at buf (s_idx x)); [|done].
    by destruct (parse_error_of_u8 _).
  - intros H%assert_then_ok%assert_then_ok. cbn zeta in H.
    destruct (get_range buf (s_idx x) _) as [h|]; [|by apply ask_not_continue in H].
    destruct (get_range buf (s_idx x + 2) _) eqn:E; [|by apply ask_not_continue in H].
    destruct (_ <? len)%N; [|done]. injection H as <-. cbn.
    apply get_range_some in E as (E1 & E2 & _). unfold lenN in *. lia.
  - intros H%assert_then_ok%assert_then_ok.
    destruct (get_range buf _ _); [|by apply ask_not_continue in H].
    by destruct (from_utf8 _).
Qed.

Lemma resp_feed_S f dbg x buf :
  resp_feed_fuel (S f) dbg x buf =
  match resp_step dbg x buf with
  | Panic => (x, PPanic)
  | Ok (x', GErr err) => (x', PError err)
  | Ok (x', GInstr (IConcluded r)) => (resp_ctx_new, PConcluded r)
  | Ok (x', GInstr (IReadBytes n)) => (x', PReadBytes n)
  | Ok (x', GContinue) => resp_feed_fuel f dbg x' buf
  end.
Proof. done. Qed.

Lemma resp_feed_enough f dbg x buf :
  (resp_measure x buf < f)%nat -> snd (resp_feed_fuel f dbg x buf) <> PFuel.
Proof.
  revert x. induction f as [|f IH]; intros x Hf; [lia|].
  rewrite resp_feed_S. destruct (resp_step dbg x buf) as [[x' [err|[r|n]|]]|] eqn:E; try done.
  apply resp_step_measure in E. apply IH. lia.
Qed.

Lemma resp_measure_le x buf : (resp_measure x buf < length buf + 5)%nat.
Proof. unfold resp_measure, resp_rank. destruct (s_stage x); lia. Qed.

Lemma resp_feed_no_fuel dbg x buf : snd (resp_feed dbg x buf) <> PFuel.
Proof. apply resp_feed_enough, resp_measure_le. Qed.

Lemma resp_feed_mono f f' dbg x buf :
  (f <= f')%nat -> snd (resp_feed_fuel f dbg x buf) <> PFuel ->
  resp_feed_fuel f' dbg x buf = resp_feed_fuel f dbg x buf.
Proof.
  revert f' x. induction f as [|f IH]; intros f' x Hle H; [done|].
  destruct f' as [|f']; [lia|]. rewrite !resp_feed_S in *.
  destruct (resp_step dbg x buf) as [[x' [err|[r|n]|]]|]; try done.
  apply IH; [lia|done].
Qed.

Lemma resp_feed_eq dbg x buf :
  resp_feed dbg x buf =
  match resp_step dbg x buf with
  | Panic => (x, PPanic)
  | Ok (x', GErr err) => (x', PError err)
  | Ok (x', GInstr (IConcluded r)) => (resp_ctx_new, PConcluded r)
  | Ok (x', GInstr (IReadBytes n)) => (x', PReadBytes n)
  | Ok (x', GContinue) => resp_feed dbg x' buf
  end.
Proof.
  unfold resp_feed at 1. replace (length buf + 5)%nat with (S (length buf + 4))%nat by lia.
  rewrite resp_feed_S.
  destruct (resp_step dbg x buf) as [[x' [err|[r|n]|]]|] eqn:E; try done.
  unfold resp_feed. symmetry. apply resp_feed_mono; [lia|].
  apply resp_feed_enough. apply resp_step_measure in E.
  pose proof (resp_measure_le x buf). lia.
Qed.

Global Arguments resp_feed : simpl never.

Lemma resp_feed_ind dbg buf (P : resp_ctx -> Prop) :
  (forall x x', resp_step dbg x buf = Ok (x', GContinue) -> P x' -> P x) ->
  (forall x, (forall x', resp_step dbg x buf <> Ok (x', GContinue)) -> P x) ->
  forall x, P x.
Proof.
  intros Hn Hd x. remember (resp_measure x buf) as n eqn:Hm.
  revert x Hm. induction n as [n IH] using lt_wf_ind. intros x ->.
  destruct (resp_step dbg x buf) as [[x' [err|i|]]|] eqn:E.
  - apply Hd. rewrite E. done.
  - apply Hd. rewrite E. done.
  - eapply Hn; [done|]. eapply IH; [|done]. by eapply resp_step_measure.
  - apply Hd. rewrite E. done.
Qed.

(** ** Messages that are not complete *)

(** Everything happens only once the whole message is there. *)
Lemma feed_incomplete dbg p msg_len :
  (lenN p < 4 \/ exists h t, p = h ++ t /\ lenN h = 4 /\ be_dec h = msg_len
                             /\ lenN p < 4 + msg_len)%N ->
  resp_feed dbg resp_ctx_new p =
  (resp_ctx_new, PReadBytes (if lenN p <? 4 then 4 - lenN p else 4 + msg_len - lenN p)%N).
Proof.
  intros H. rewrite resp_feed_eq. unfold resp_step. cbn [s_stage resp_ctx_new].
  unfold resp_stage_init. rewrite assert_then_true by done.
  destruct H as [H|(h & t & -> & Hh & Hm & Hl)].
  - rewrite get_range_too_far by done. cbn. by replace (lenN p <? 4)%N with true by lia.
  - assert (get_range (h ++ t) 0 4 = Some h) as ->.
    { apply (get_range_app_mid [] h t); [done|]. rewrite lenN_nil. lia. }
    rewrite Hm. replace (lenN (h ++ t) <? msg_len + 4)%N with true by lia.
    unfold usize_sub. rewrite usub_ok by lia. cbn.
    rewrite lenN_app in *. by replace (lenN h + lenN t <? 4)%N with false by lia.
Qed.

(** ** Complete messages *)

(** The header and the kind byte. *)
Lemma feed_frame dbg k payload s :
  resp_feed dbg resp_ctx_new (frame k payload ++ s) =
  resp_feed dbg (RespCtx 5 (match k with
                 | RTBoolean => SBoolean
                 | RTFloat => SFloat
                 | RTInteger => SInteger
                 | RTList | RTMap | RTSet => STypeInit k 2
                 | RTBytes | RTString => STypeInit k 4
                 | RTDispatchError => SDispatchError
                 | RTParseError => SParseError
                 end)) (frame k payload ++ s).
Proof.
  rewrite resp_feed_eq. unfold resp_step at 1. cbn [s_stage resp_ctx_new].
  unfold resp_stage_init. rewrite assert_then_true by done. cbn [s_idx].
  assert (Hlen : (lenN (frame k payload ++ s) = 5 + lenN payload + lenN s)%N).
  { unfold frame. rewrite !lenN_app, be_enc_lenN, lenN_one. lia. }
  assert (get_range (frame k payload ++ s) 0 4 = Some (be_enc 4 (1 + lenN payload))) as ->.
  { unfold frame. rewrite <-!app_assoc.
    apply (get_range_app_mid [] (be_enc 4 (1 + lenN payload))); [done|].
    rewrite lenN_nil, be_enc_lenN. done. }
  cbn zeta. rewrite be_dec_enc.
  pose proof (N.mod_le (1 + lenN payload) (256 ^ N.of_nat 4) ltac:(done)) as Hmod.
  replace (_ <? _)%N with false by lia.
  change (s_idx resp_ctx_new + 4)%N with 4%N.
  rewrite resp_feed_eq. unfold resp_step at 1. cbn [s_stage].
  unfold resp_stage_determine. rewrite assert_then_true by done. cbn [s_idx].
  assert (get_at (frame k payload ++ s) 4 = Some (n2b (response_type_to_u8 k))) as ->.
  { unfold frame. rewrite <-!app_assoc. apply get_at_mid. by rewrite be_enc_lenN. }
  rewrite b2n_n2b_small by (destruct k; done).
  assert (response_type_of_u8 (response_type_to_u8 k) = Some k) as -> by (by destruct k).
  done.
Qed.

(** The 9- or 7-byte prefix that contains the length or count field. *)
Lemma frame_head k n lf rest s :
  frame k (be_enc n lf ++ rest) ++ s =
  (be_enc 4 (1 + (N.of_nat n + lenN rest)) ++ [n2b (response_type_to_u8 k)]) ++ be_enc n lf ++ (rest ++ s).
Proof. unfold frame. by rewrite lenN_app, be_enc_lenN, <-!app_assoc. Qed.

Lemma type_init_range k n lf rest s :
  get_range (frame k (be_enc n lf ++ rest) ++ s) 5 (5 + N.of_nat n) = Some (be_enc n lf).
Proof.
  rewrite frame_head. apply get_range_app_mid;
    by rewrite !lenN_app, !be_enc_lenN, lenN_one.
Qed.

(** After the head of a frame. *)
Definition head_of k n lf (rest : bytes) : bytes :=
  be_enc 4 (1 + (N.of_nat n + lenN rest)) ++ [n2b (response_type_to_u8 k)] ++ be_enc n lf.

Lemma head_of_len k n lf rest : lenN (head_of k n lf rest) = (5 + N.of_nat n)%N.
Proof. unfold head_of. rewrite !lenN_app, !be_enc_lenN, lenN_one. lia. Qed.

Lemma frame_split k n lf rest s :
  frame k (be_enc n lf ++ rest) ++ s = head_of k n lf rest ++ (rest ++ s).
Proof. rewrite frame_head. unfold head_of. by rewrite <-!app_assoc. Qed.

Lemma type_init_step dbg k n lf rest s st :
  (k = RTBytes \/ k = RTString) /\ n = 4%nat \/ (k = RTList \/ k = RTMap \/ k = RTSet) /\ n = 2%nat ->
  (lf < 256 ^ N.of_nat n)%N ->
  st = match k with
       | RTBytes => Some (SBytes lf)
       | RTList => Some (SList [] lf)
       | RTMap => if (lf =? 0)%N then None else Some (SMap ∅ lf)
       | RTSet => Some (SSet ∅ lf)
       | _ => if (lf =? 0)%N then None else Some (SString lf)
       end ->
  resp_feed dbg (RespCtx 5 (STypeInit k (N.of_nat n))) (frame k (be_enc n lf ++ rest) ++ s) =
  match st with
  | Some st => resp_feed dbg (RespCtx (5 + N.of_nat n) st) (frame k (be_enc n lf ++ rest) ++ s)
  | None => (resp_ctx_new, PConcluded (RValue match k with RTMap => VMap ∅ | _ => VString [] end))
  end.
Proof.
  intros Hk Hlf ->. rewrite resp_feed_eq. unfold resp_step at 1. cbn [s_stage].
  unfold resp_stage_type_init. rewrite assert_then_true by done. cbn [s_idx].
  rewrite type_init_range. rewrite assert_then_true by (rewrite be_enc_lenN; lia).
  rewrite be_dec_enc, N.mod_small by done.
  destruct Hk as [[[->| ->] ->]|[[->|[->| ->]] ->]]; cbn zeta;
    try destruct (lf =? 0)%N; done.
Qed.

(** *** Lists *)

Lemma feed_list (dbg : bool) pre l s acc n :
  (6 < lenN pre)%N -> l <> [] -> (lenN acc + lenN l = n)%N ->
  Forall (fun x => lenN x < u32_mod)%N l ->
  resp_feed dbg (RespCtx (lenN pre) (SList acc n)) (pre ++ enc_items l ++ s)
  = (resp_ctx_new, PConcluded (RValue (VList (acc ++ l)))).
Proof.
  revert pre acc. induction l as [|a l IH]; intros pre acc Hpre Hne Hn Hl; [done|].
  apply Forall_cons in Hl as [Ha Hl]. rewrite lenN_cons in Hn.
  rewrite resp_feed_eq. unfold resp_step at 1. cbn [s_stage].
  unfold resp_stage_list. cbn [s_idx].
  rewrite assert_then_true by lia. rewrite assert_then_true by (rewrite lenN_app; lia).
  assert (Hbuf : pre ++ enc_items (a :: l) ++ s
    = pre ++ be_enc 4 (lenN a) ++ (a ++ enc_items l ++ s)).
  { cbn. by rewrite <-!app_assoc. }
  rewrite Hbuf. cbn zeta.
  rewrite get_range_app_mid; [|done|by rewrite be_enc_lenN].
  rewrite be4 by done. rewrite app_assoc.
  rewrite get_range_app_mid; [|by rewrite lenN_app, be_enc_lenN|
    by rewrite lenN_app, be_enc_lenN].
  rewrite lenN_app, lenN_one. destruct l as [|b l].
  - rewrite lenN_nil in Hn. by replace (lenN acc + 1 <? n)%N with false by lia.
  - replace (lenN acc + 1 <? n)%N with true by (rewrite lenN_cons in Hn; lia).
    replace (lenN pre + 4 + lenN a)%N with (lenN ((pre ++ be_enc 4 (lenN a)) ++ a))
      by (rewrite !lenN_app, be_enc_lenN; lia).
    rewrite app_assoc. rewrite IH; [|rewrite !lenN_app; lia|done| |done].
    + by rewrite <-app_assoc.
    + rewrite lenN_app, lenN_one. lia.
Qed.

(** *** Maps *)

Lemma feed_map (dbg : bool) (pre : bytes) (l : list (bytes * bytes)) (s : bytes) (acc : gmap bytes bytes) n :
  (6 < lenN pre)%N -> l <> [] -> (N.of_nat (size acc) + lenN l = n)%N ->
  NoDup l.*1 -> (forall k, k ∈ l.*1 -> acc !! k = None) ->
  (forall k v, (k, v) ∈ l -> lenN k < 256 /\ lenN v < u32_mod)%N ->
  resp_feed dbg (RespCtx (lenN pre) (SMap acc n)) (pre ++ enc_pairs l ++ s)
  = (resp_ctx_new, PConcluded (RValue (VMap (list_to_map l ∪ acc)))).
Proof.
  revert pre acc. induction l as [|[k v] l IH];
    intros pre acc Hpre Hne Hn Hnd Hacc Hl; [done|].
  destruct (Hl k v) as [Hk Hv]; [apply elem_of_list_here|].
  rewrite lenN_cons in Hn. rewrite fmap_cons in Hnd, Hacc. cbn in Hnd, Hacc.
  apply NoDup_cons in Hnd as [Hnk Hnd].
  rewrite resp_feed_eq. unfold resp_step at 1. cbn [s_stage].
  unfold resp_stage_map. cbn [s_idx].
  rewrite assert_then_true by lia. rewrite assert_then_true by (rewrite lenN_app; lia).
  assert (Hbuf : pre ++ enc_pairs ((k, v) :: l) ++ s
    = pre ++ be_enc 1 (lenN k) ++ (k ++ be_enc 4 (lenN v) ++ v ++ enc_pairs l ++ s)).
  { cbn. by rewrite <-!app_assoc. }
  rewrite Hbuf. cbn zeta.
  rewrite get_range_app_mid; [|done|by rewrite be_enc_lenN].
  assert (be_dec (be_enc 1 (lenN k)) = lenN k) as ->.
  { rewrite be_dec_enc. apply N.mod_small. done. }
  rewrite app_assoc.
  rewrite get_range_app_mid; [|by rewrite lenN_app, be_enc_lenN|
    by rewrite lenN_app, be_enc_lenN].
  rewrite (app_assoc _ k).
  rewrite get_range_app_mid; [|by rewrite !lenN_app, be_enc_lenN|
    by rewrite !lenN_app, !be_enc_lenN].
  rewrite be4 by done. rewrite (app_assoc _ (be_enc 4 _)).
  rewrite get_range_app_mid; [|by rewrite !lenN_app, !be_enc_lenN|
    by rewrite !lenN_app, !be_enc_lenN].
  assert (Hk' : acc !! k = None) by (apply Hacc, elem_of_list_here).
  rewrite map_size_insert_None by done.
  assert (Hu : list_to_map l ∪ <[k:=v]> acc = list_to_map ((k, v) :: l) ∪ acc).
  { cbn. rewrite <-insert_union_l. rewrite insert_union_r; [done|].
    by apply not_elem_of_list_to_map_1. }
  destruct l as [|kv2 l].
  - rewrite lenN_nil in Hn. replace (_ <? n)%N with false by lia.
    unfold conclude. rewrite <-Hu. cbn.
    by rewrite (left_id_L (∅ : gmap bytes bytes) (∪)).
  - replace (N.of_nat (S (size acc)) <? n)%N with true by (rewrite lenN_cons in Hn; lia).
    rewrite (app_assoc _ v).
    match goal with |- resp_feed _ (RespCtx ?i _) (?p ++ _) = _ =>
      replace i with (lenN p) by (rewrite !lenN_app, !be_enc_lenN; lia) end.
    rewrite IH; [by rewrite Hu|rewrite !lenN_app; lia|done| |done| |].
    + rewrite map_size_insert_None by done. lia.
    + intros k2 Hk2. rewrite lookup_insert_ne; [|by intros ->].
      by apply Hacc, elem_of_list_further.
    + intros k2 v2 H2. by apply Hl, elem_of_list_further.
Qed.

(** *** Sets *)

Lemma feed_set (dbg : bool) (pre : bytes) (l : list bytes) (s : bytes) (acc : gset bytes) n :
  (6 < lenN pre)%N -> l <> [] -> (N.of_nat (size acc) + lenN l = n)%N ->
  NoDup l -> (forall x, x ∈ l -> x ∉ acc) ->
  (forall x, x ∈ l -> lenN x < u16_mod)%N ->
  resp_feed dbg (RespCtx (lenN pre) (SSet acc n)) (pre ++ enc_set l ++ s)
  = (resp_ctx_new, PConcluded (RValue (VSet (list_to_set l ∪ acc)))).
Proof.
  revert pre acc. induction l as [|x l IH];
    intros pre acc Hpre Hne Hn Hnd Hacc Hl; [done|].
  assert (Hx : (lenN x < u16_mod)%N) by (apply Hl, elem_of_list_here).
  assert (Hx' : x ∉ acc) by (apply Hacc, elem_of_list_here).
  rewrite lenN_cons in Hn. apply NoDup_cons in Hnd as [Hnx Hnd].
  rewrite resp_feed_eq. unfold resp_step at 1. cbn [s_stage].
  unfold resp_stage_set. cbn [s_idx].
  rewrite assert_then_true by lia. rewrite assert_then_true by (rewrite lenN_app; lia).
  assert (Hbuf : pre ++ enc_set (x :: l) ++ s
    = pre ++ be_enc 2 (lenN x) ++ (x ++ enc_set l ++ s)).
  { cbn. by rewrite <-!app_assoc. }
  rewrite Hbuf. cbn zeta.
  rewrite get_range_app_mid; [|done|by rewrite be_enc_lenN].
  rewrite be2 by done. rewrite app_assoc.
  rewrite get_range_app_mid; [|by rewrite lenN_app, be_enc_lenN|
    by rewrite lenN_app, be_enc_lenN].
  assert (Hsz : size ({[x]} ∪ acc) = S (size acc)).
  { rewrite size_union by set_solver. by rewrite size_singleton. }
  rewrite Hsz.
  assert (Hu : list_to_set l ∪ ({[x]} ∪ acc) = list_to_set (x :: l) ∪ acc) by set_solver.
  destruct l as [|y l].
  - rewrite lenN_nil in Hn. replace (_ <? n)%N with false by lia.
    unfold conclude. rewrite <-Hu. cbn.
    by rewrite (left_id_L (∅ : gset bytes) (∪)).
  - replace (N.of_nat (S (size acc)) <? n)%N with true by (rewrite lenN_cons in Hn; lia).
    rewrite (app_assoc _ x).
    match goal with |- resp_feed _ (RespCtx ?i _) (?p ++ _) = _ =>
      replace i with (lenN p) by (rewrite !lenN_app, !be_enc_lenN; lia) end.
    rewrite IH; [by rewrite Hu|rewrite !lenN_app; lia|done|rewrite Hsz; lia|done| |].
    + intros z Hz. apply not_elem_of_union. split.
      * rewrite elem_of_singleton. by intros ->.
      * by apply Hacc, elem_of_list_further.
    + intros z Hz. by apply Hl, elem_of_list_further.
Qed.
