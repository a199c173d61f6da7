(** What bytes a response parser takes for which response: lemmas for C99. *)
From Verif Require Import Bytes BytesFacts Utf8 Value CommandId Response RespContext
  WireSpec IdsFacts ResponseFacts RespContextFacts RespProps RespExact Utf8Spec Utf8Facts RespReadSpec.
From stdpp Require Import gmap list.
From Coq Require Import NArith ZArith Lia.
From Coq Require Import ZifyBool ZifyNat ZifyN.
From Coq.Init Require Import Byte.

Lemma range_split (pre rest : bytes) i j h :
  i = lenN pre -> get_range (pre ++ rest) i j = Some h ->
  exists t, rest = h ++ t /\ lenN h = (j - i)%N.
Proof.
  intros -> H. apply get_range_some in H as (H1 & H2 & H3 & H4). 
  rewrite lenN_nat, drop_app in H4. exists (drop (N.to_nat (j - lenN pre)) rest).
  split; [|done]. by rewrite H4, take_drop.
Qed.

Lemma range_there (pre h t : bytes) i j :
  i = lenN pre -> j = (lenN pre + lenN h)%N -> get_range (pre ++ h ++ t) i j = Some h.
Proof. apply get_range_app_mid. Qed.

Lemma be_back k (h : bytes) : lenN h = N.of_nat k -> h = be_enc k (be_dec h).
Proof. intros H. symmetry. apply be_enc_dec. unfold lenN in H. lia. Qed.

Lemma be_back_lt k (h : bytes) : lenN h = N.of_nat k -> (be_dec h < 256 ^ N.of_nat k)%N.
Proof. intros <-. apply be_dec_lt. Qed.

Lemma text_iff s : is_text s <-> utf8_valid s = true.
Proof. split; [intros [cs H]; by eapply chars_valid|apply valid_chars]. Qed.

(** ** Lists *)

Lemma list_sound dbg r buf x : forall pre rest acc n,
  x = RespCtx (lenN pre) (SList acc n) -> buf = pre ++ rest ->
  (resp_feed dbg x buf).2 = PConcluded r ->
  exists l s, rest = items l ++ s /\ Forall (fun a => lenN a < u32_mod)%N l /\
    (lenN acc + lenN l = N.max n (lenN acc + 1))%N /\ r = RValue (VList (acc ++ l)).
Proof.
  revert x. apply (resp_feed_ind dbg buf (fun x => forall pre rest acc n,
    x = RespCtx (lenN pre) (SList acc n) -> buf = pre ++ rest ->
    (resp_feed dbg x buf).2 = PConcluded r ->
    exists l s, rest = items l ++ s /\ Forall (fun a => lenN a < u32_mod)%N l /\
    (lenN acc + lenN l = N.max n (lenN acc + 1))%N /\ r = RValue (VList (acc ++ l)))).
  - intros x x' E IH pre rest acc n -> -> H. rewrite resp_feed_eq, E in H.
    unfold resp_step in E. cbn [s_stage] in E. unfold resp_stage_list in E. cbn [s_idx] in E.
    apply assert_then_ok, assert_then_ok in E. cbn zeta in E.
    destruct (get_range _ (lenN pre) _) as [h|] eqn:E1; [|by apply ask_not_continue in E].
    destruct (get_range _ (lenN pre + 4) _) as [a|] eqn:E2; [|by apply ask_not_continue in E].
    apply range_split in E1 as (t & -> & Hh); [|done].
    rewrite app_assoc in E2. apply range_split in E2 as (t' & -> & Ha); [|rewrite lenN_app; lia].
    destruct (_ <? _)%N eqn:El; [|done]. injection E as <-.
    rewrite lenN_app, lenN_one in El.
    assert (Hd : be_dec h = lenN a) by lia.
    assert (Hlt : (be_dec h < 256 ^ N.of_nat 4)%N) by (apply be_back_lt; lia).
    destruct (IH (pre ++ h ++ a) t' (acc ++ [a]) n) as (l & s & -> & Hl & Hn & ->);
      [|by rewrite <-!app_assoc|done|].
    { f_equal. rewrite !lenN_app. lia. }
    exists (a :: l), s. split_and!.
    + cbn. rewrite (be_back 4 h) by lia. rewrite Hd. by rewrite <-!app_assoc.
    + constructor; [|done]. rewrite <-Hd. exact Hlt.
    + rewrite lenN_cons. rewrite lenN_app, lenN_one in Hn. lia.
    + by rewrite <-app_assoc.
  - intros x Hn pre rest acc n -> -> H. rewrite resp_feed_eq in H.
    destruct (resp_step dbg _ _) as [[x' [err|[r'|m]|]]|] eqn:E; try done; [|by destruct (Hn x')].
    injection H as ->. clear Hn.
    unfold resp_step in E. cbn [s_stage] in E. unfold resp_stage_list in E. cbn [s_idx] in E.
    apply assert_then_ok, assert_then_ok in E. cbn zeta in E.
    destruct (get_range _ (lenN pre) _) as [h|] eqn:E1; [|by apply ask_ok in E as (? & _ & _ & ?)].
    destruct (get_range _ (lenN pre + 4) _) as [a|] eqn:E2; [|by apply ask_ok in E as (? & _ & _ & ?)].
    apply range_split in E1 as (t & -> & Hh); [|done].
    rewrite app_assoc in E2. apply range_split in E2 as (t' & -> & Ha); [|rewrite lenN_app; lia].
    destruct (_ <? _)%N eqn:El; [done|]. injection E as _ <-.
    rewrite lenN_app, lenN_one in El.
    assert (Hd : be_dec h = lenN a) by lia.
    assert (Hlt : (be_dec h < 256 ^ N.of_nat 4)%N) by (apply be_back_lt; lia).
    exists [a], t'. split_and!.
    + cbn. rewrite (be_back 4 h) by lia. rewrite Hd. by rewrite <-!app_assoc.
    + constructor; [|done]. rewrite <-Hd. exact Hlt.
    + rewrite lenN_one. lia.
    + done.
Qed.

Lemma list_complete (dbg : bool) pre l s acc n :
  (6 < lenN pre)%N -> (lenN acc + lenN l = N.max n (lenN acc + 1))%N ->
  Forall (fun x => lenN x < u32_mod)%N l ->
  resp_feed dbg (RespCtx (lenN pre) (SList acc n)) (pre ++ items l ++ s)
  = (resp_ctx_new, PConcluded (RValue (VList (acc ++ l)))).
Proof.
  revert pre acc. induction l as [|a l IH]; intros pre acc Hpre Hn Hl.
  { rewrite lenN_nil in Hn. lia. }
  apply Forall_cons in Hl as [Ha Hl]. rewrite lenN_cons in Hn.
  rewrite resp_feed_eq. unfold resp_step at 1. cbn [s_stage].
  unfold resp_stage_list. cbn [s_idx].
  rewrite assert_then_true by lia. rewrite assert_then_true by (rewrite lenN_app; lia).
  assert (Hbuf : pre ++ items (a :: l) ++ s
    = pre ++ be_enc 4 (lenN a) ++ (a ++ items l ++ s)).
  { cbn. by rewrite <-!app_assoc. }
  rewrite Hbuf. cbn zeta.
  rewrite get_range_app_mid; [|done|by rewrite be_enc_lenN].
  rewrite be4 by done. rewrite app_assoc.
  rewrite get_range_app_mid; [|by rewrite lenN_app, be_enc_lenN|
    by rewrite lenN_app, be_enc_lenN].
  rewrite lenN_app, lenN_one. destruct l as [|b l].
  - rewrite lenN_nil in Hn. by replace (lenN acc + 1 <? n)%N with false by lia.
  - replace (lenN acc + 1 <? n)%N with true by (rewrite lenN_cons in Hn; lia).
    replace (lenN pre + 4 + lenN a)%N with (lenN ((pre ++ be_enc 4 (lenN a)) ++ a))
      by (rewrite !lenN_app, be_enc_lenN; lia).
    rewrite app_assoc. rewrite IH; [|rewrite !lenN_app; lia| |done].
    + by rewrite <-app_assoc.
    + rewrite lenN_app, lenN_one. rewrite lenN_cons in Hn |- *. lia.
Qed.

(** ** Sets of members seen *)

(** With [l] after what was seen, the number is reached, and not before. *)
Definition completes (seen : gset bytes) (n : N) (l : list bytes) : Prop :=
  exists p x, l = p ++ [x] /\ x ∉ seen ∪ list_to_set p /\
    (N.of_nat (size (seen ∪ list_to_set p)) + 1 = n)%N.

Lemma size_add (x : bytes) (a : gset bytes) : x ∉ a -> size ({[x]} ∪ a) = S (size a).
Proof. intros H. rewrite size_union by set_solver. by rewrite size_singleton. Qed.

Lemma size_add_le (x : bytes) (a : gset bytes) :
  (size a <= size ({[x]} ∪ a) <= S (size a)) /\ (size ({[x]} ∪ a) = S (size a) -> x ∉ a).
Proof.
  destruct (decide (x ∈ a)) as [Hx|Hx].
  - replace ({[x]} ∪ a) with a by set_solver. split; [lia|]. lia.
  - rewrite size_add by done. split; [lia|done].
Qed.

Lemma completes_more seen n a l :
  (N.of_nat (size ({[a]} ∪ seen)) < n)%N ->
  (completes seen n (a :: l) <-> completes ({[a]} ∪ seen) n l).
Proof.
  intros Hlt. split.
  - intros ([|b p] & x & E & Hx & Hs).
    + injection E as -> ->. exfalso. cbn in Hx, Hs. rewrite (right_id_L ∅ (∪)) in Hx, Hs.
      rewrite size_add in Hlt by done. lia.
    + injection E as <- ->. exists p, x. split; [done|].
      replace ({[a]} ∪ seen ∪ list_to_set p) with (seen ∪ list_to_set (a :: p) : gset bytes) by set_solver. done.
  - intros (p & x & -> & Hx & Hs). exists (a :: p), x. split; [done|].
    by replace (seen ∪ list_to_set (a :: p) : gset bytes) with ({[a]} ∪ seen ∪ list_to_set p) by set_solver.
Qed.

Lemma completes_last seen n a l :
  (N.of_nat (size seen) < n)%N -> (n <= N.of_nat (size ({[a]} ∪ seen)))%N ->
  (completes seen n (a :: l) <-> l = []).
Proof.
  intros H1 H2. destruct (size_add_le a seen) as [H3 H4]. split.
  - intros ([|b p] & x & E & Hx & Hs).
    + by injection E as -> ->.
    + injection E as <- ->. exfalso.
      assert (size ({[a]} ∪ seen) <= size (seen ∪ list_to_set (a :: p))) by (apply subseteq_size; set_solver).
      lia.
  - intros ->. exists [], a. split; [done|]. cbn. rewrite (right_id_L ∅ (∪)). split; [|lia].
    apply H4. lia.
Qed.

Lemma completes_reaches n l : completes ∅ n l <-> reaches n l.
Proof.
  unfold completes, reaches, distinct. split.
  - intros (p & x & -> & Hx & Hs). rewrite (left_id_L ∅ (∪)) in Hx, Hs. split; [|exists p, x; split; [done|set_solver]].
    rewrite list_to_set_app_L. cbn. rewrite (right_id_L ∅ (∪)), (comm_L (∪)), size_add by done. lia.
  - intros [Hd (p & x & -> & Hx)]. exists p, x. rewrite (left_id_L ∅ (∪)). split; [done|].
    assert (Hx' : x ∉ (list_to_set p : gset bytes)) by set_solver. split; [done|].
    rewrite list_to_set_app_L in Hd. cbn in Hd. rewrite (right_id_L ∅ (∪)), (comm_L (∪)), size_add in Hd by done. lia.
Qed.

(** ** Sets *)

Lemma set_sound dbg r buf x : forall pre rest acc n,
  x = RespCtx (lenN pre) (SSet acc n) -> buf = pre ++ rest ->
  (N.of_nat (size acc) < N.max 1 n)%N ->
  (resp_feed dbg x buf).2 = PConcluded r ->
  exists l s, rest = members l ++ s /\ Forall (fun a => lenN a < u16_mod)%N l /\
    completes acc (N.max 1 n) l /\ r = RValue (VSet (acc ∪ list_to_set l)).
Proof.
  revert x. apply (resp_feed_ind dbg buf (fun x => forall pre rest acc n,
    x = RespCtx (lenN pre) (SSet acc n) -> buf = pre ++ rest ->
    (N.of_nat (size acc) < N.max 1 n)%N ->
    (resp_feed dbg x buf).2 = PConcluded r ->
    exists l s, rest = members l ++ s /\ Forall (fun a => lenN a < u16_mod)%N l /\
    completes acc (N.max 1 n) l /\ r = RValue (VSet (acc ∪ list_to_set l)))).
  - intros x x' E IH pre rest acc n -> -> Hacc H. rewrite resp_feed_eq, E in H.
    unfold resp_step in E. cbn [s_stage] in E. unfold resp_stage_set in E. cbn [s_idx] in E.
    apply assert_then_ok, assert_then_ok in E. cbn zeta in E.
    destruct (get_range _ (lenN pre) _) as [h|] eqn:E1; [|by apply ask_not_continue in E].
    destruct (get_range _ (lenN pre + 2) _) as [a|] eqn:E2; [|by apply ask_not_continue in E].
    apply range_split in E1 as (t & -> & Hh); [|done].
    rewrite app_assoc in E2. apply range_split in E2 as (t' & -> & Ha); [|rewrite lenN_app; lia].
    destruct (_ <? _)%N eqn:El; [|done]. injection E as <-.
    assert (Hd : be_dec h = lenN a) by lia.
    assert (Hlt : (be_dec h < 256 ^ N.of_nat 2)%N) by (apply be_back_lt; lia).
    destruct (IH (pre ++ h ++ a) t' ({[a]} ∪ acc) n) as (l & s & -> & Hl & Hn & ->);
      [|by rewrite <-!app_assoc|lia|done|].
    { f_equal. rewrite !lenN_app. lia. }
    exists (a :: l), s. split_and!.
    + cbn. rewrite (be_back 2 h) by lia. rewrite Hd. by rewrite <-!app_assoc.
    + constructor; [|done]. rewrite <-Hd. exact Hlt.
    + apply completes_more; [lia|done].
    + do 2 f_equal. set_solver.
  - intros x Hn pre rest acc n -> -> Hacc H. rewrite resp_feed_eq in H.
    destruct (resp_step dbg _ _) as [[x' [err|[r'|m]|]]|] eqn:E; try done; [|by destruct (Hn x')].
    injection H as ->. clear Hn.
    unfold resp_step in E. cbn [s_stage] in E. unfold resp_stage_set in E. cbn [s_idx] in E.
    apply assert_then_ok, assert_then_ok in E. cbn zeta in E.
    destruct (get_range _ (lenN pre) _) as [h|] eqn:E1; [|by apply ask_ok in E as (? & _ & _ & ?)].
    destruct (get_range _ (lenN pre + 2) _) as [a|] eqn:E2; [|by apply ask_ok in E as (? & _ & _ & ?)].
    apply range_split in E1 as (t & -> & Hh); [|done].
    rewrite app_assoc in E2. apply range_split in E2 as (t' & -> & Ha); [|rewrite lenN_app; lia].
    destruct (_ <? _)%N eqn:El; [done|]. injection E as _ <-.
    assert (Hd : be_dec h = lenN a) by lia.
    assert (Hlt : (be_dec h < 256 ^ N.of_nat 2)%N) by (apply be_back_lt; lia).
    assert (Hs1 : 1 <= size ({[a]} ∪ acc)).
    { etrans; [|apply (subseteq_size {[a]}); set_solver]. by rewrite size_singleton. }
    exists [a], t'. split_and!.
    + cbn. rewrite (be_back 2 h) by lia. rewrite Hd. by rewrite <-!app_assoc.
    + constructor; [|done]. rewrite <-Hd. exact Hlt.
    + apply completes_last; [lia|lia|done].
    + do 2 f_equal. set_solver.
Qed.

Lemma set_complete (dbg : bool) pre l s acc n :
  (6 < lenN pre)%N -> (N.of_nat (size acc) < N.max 1 n)%N -> completes acc (N.max 1 n) l ->
  Forall (fun x => lenN x < u16_mod)%N l ->
  resp_feed dbg (RespCtx (lenN pre) (SSet acc n)) (pre ++ members l ++ s)
  = (resp_ctx_new, PConcluded (RValue (VSet (acc ∪ list_to_set l)))).
Proof.
  revert pre acc. induction l as [|a l IH]; intros pre acc Hpre Hacc Hc Hl.
  { destruct Hc as (p & x & E & _). by destruct p. }
  apply Forall_cons in Hl as [Ha Hl].
  rewrite resp_feed_eq. unfold resp_step at 1. cbn [s_stage].
  unfold resp_stage_set. cbn [s_idx].
  rewrite assert_then_true by lia. rewrite assert_then_true by (rewrite lenN_app; lia).
  assert (Hbuf : pre ++ members (a :: l) ++ s
    = pre ++ be_enc 2 (lenN a) ++ (a ++ members l ++ s)).
  { cbn. by rewrite <-!app_assoc. }
  rewrite Hbuf. cbn zeta.
  rewrite get_range_app_mid; [|done|by rewrite be_enc_lenN].
  rewrite be2 by done. rewrite app_assoc.
  rewrite get_range_app_mid; [|by rewrite lenN_app, be_enc_lenN|
    by rewrite lenN_app, be_enc_lenN].
  assert (Hs1 : 1 <= size ({[a]} ∪ acc)).
  { etrans; [|apply (subseteq_size {[a]}); set_solver]. by rewrite size_singleton. }
  destruct (_ <? _)%N eqn:El.
  - apply completes_more in Hc; [|lia].
    replace (lenN pre + 2 + lenN a)%N with (lenN ((pre ++ be_enc 2 (lenN a)) ++ a))
      by (rewrite !lenN_app, be_enc_lenN; lia).
    rewrite app_assoc. rewrite IH; [|rewrite !lenN_app; lia|lia|done|done].
    do 4 f_equal. set_solver.
  - apply completes_last in Hc as ->; [|lia|lia]. cbn. do 4 f_equal. set_solver.
Qed.

(** ** Maps *)

Notation put := (fun (m : gmap bytes bytes) (kv : bytes * bytes) => <[kv.1 := kv.2]> m).

Lemma dom_put (acc : gmap bytes bytes) k v : dom (<[k := v]> acc) = {[k]} ∪ dom acc.
Proof. apply dom_insert_L. Qed.

Lemma map_sound dbg r buf x : forall pre rest acc n,
  x = RespCtx (lenN pre) (SMap acc n) -> buf = pre ++ rest ->
  (N.of_nat (size acc) < n)%N ->
  (resp_feed dbg x buf).2 = PConcluded r ->
  exists l s, rest = entries l ++ s /\ Forall (fun kv => lenN kv.1 < 256 /\ lenN kv.2 < u32_mod)%N l /\
    completes (dom acc) n l.*1 /\ r = RValue (VMap (foldl put acc l)).
Proof.
  revert x. apply (resp_feed_ind dbg buf (fun x => forall pre rest acc n,
    x = RespCtx (lenN pre) (SMap acc n) -> buf = pre ++ rest ->
    (N.of_nat (size acc) < n)%N ->
    (resp_feed dbg x buf).2 = PConcluded r ->
    exists l s, rest = entries l ++ s /\ Forall (fun kv => lenN kv.1 < 256 /\ lenN kv.2 < u32_mod)%N l /\
    completes (dom acc) n l.*1 /\ r = RValue (VMap (foldl put acc l)))).
  - intros x x' E IH pre rest acc n -> -> Hacc H. rewrite resp_feed_eq, E in H.
    unfold resp_step in E. cbn [s_stage] in E. unfold resp_stage_map in E. cbn [s_idx] in E.
    apply assert_then_ok, assert_then_ok in E. cbn zeta in E.
    destruct (get_range _ (lenN pre) _) as [h|] eqn:E1; [|by apply ask_not_continue in E].
    destruct (get_range _ (lenN pre + 1) _) as [k|] eqn:E2; [|by apply ask_not_continue in E].
    destruct (get_range _ (lenN pre + 1 + be_dec h) _) as [h2|] eqn:E3; [|by apply ask_not_continue in E].
    destruct (get_range _ (lenN pre + 1 + be_dec h + 4) _) as [v|] eqn:E4; [|by apply ask_not_continue in E].
    apply range_split in E1 as (t & -> & Hh); [|done].
    rewrite app_assoc in E2. apply range_split in E2 as (t1 & -> & Hk); [|rewrite lenN_app; lia].
    rewrite !app_assoc in E3. apply range_split in E3 as (t2 & -> & Hh2); [|rewrite !lenN_app; lia].
    rewrite !app_assoc in E4. apply range_split in E4 as (t3 & -> & Hv); [|rewrite !lenN_app; lia].
    destruct (_ <? _)%N eqn:El; [|done]. injection E as <-.
    assert (Hd : be_dec h = lenN k) by lia.
    assert (Hd2 : be_dec h2 = lenN v) by lia.
    assert (Hlt : (be_dec h < 256 ^ N.of_nat 1)%N) by (apply be_back_lt; lia).
    assert (Hlt2 : (be_dec h2 < 256 ^ N.of_nat 4)%N) by (apply be_back_lt; lia).
    destruct (IH (pre ++ h ++ k ++ h2 ++ v) t3 (<[k := v]> acc) n) as (l & s & -> & Hl & Hn & ->);
      [|by rewrite <-!app_assoc|lia|done|].
    { f_equal. rewrite !lenN_app. lia. }
    exists ((k, v) :: l), s. split_and!.
    + cbn. rewrite (be_back 1 h), (be_back 4 h2) by lia. rewrite Hd, Hd2. by rewrite <-!app_assoc.
    + constructor; [|done]. cbn. rewrite <-Hd, <-Hd2. done.
    + rewrite dom_put in Hn. change (((k, v) :: l).*1) with (k :: l.*1). apply completes_more; [|done]. rewrite <-(dom_put acc k v), size_dom. lia.
    + done.
  - intros x Hn pre rest acc n -> -> Hacc H. rewrite resp_feed_eq in H.
    destruct (resp_step dbg _ _) as [[x' [err|[r'|m]|]]|] eqn:E; try done; [|by destruct (Hn x')].
    injection H as ->. clear Hn.
    unfold resp_step in E. cbn [s_stage] in E. unfold resp_stage_map in E. cbn [s_idx] in E.
    apply assert_then_ok, assert_then_ok in E. cbn zeta in E.
    destruct (get_range _ (lenN pre) _) as [h|] eqn:E1; [|by apply ask_ok in E as (? & _ & _ & ?)].
    destruct (get_range _ (lenN pre + 1) _) as [k|] eqn:E2; [|by apply ask_ok in E as (? & _ & _ & ?)].
    destruct (get_range _ (lenN pre + 1 + be_dec h) _) as [h2|] eqn:E3; [|by apply ask_ok in E as (? & _ & _ & ?)].
    destruct (get_range _ (lenN pre + 1 + be_dec h + 4) _) as [v|] eqn:E4; [|by apply ask_ok in E as (? & _ & _ & ?)].
    apply range_split in E1 as (t & -> & Hh); [|done].
    rewrite app_assoc in E2. apply range_split in E2 as (t1 & -> & Hk); [|rewrite lenN_app; lia].
    rewrite !app_assoc in E3. apply range_split in E3 as (t2 & -> & Hh2); [|rewrite !lenN_app; lia].
    rewrite !app_assoc in E4. apply range_split in E4 as (t3 & -> & Hv); [|rewrite !lenN_app; lia].
    destruct (_ <? _)%N eqn:El; [done|]. injection E as _ <-.
    assert (Hd : be_dec h = lenN k) by lia.
    assert (Hd2 : be_dec h2 = lenN v) by lia.
    assert (Hlt : (be_dec h < 256 ^ N.of_nat 1)%N) by (apply be_back_lt; lia).
    assert (Hlt2 : (be_dec h2 < 256 ^ N.of_nat 4)%N) by (apply be_back_lt; lia).
    exists [(k, v)], t3. split_and!.
    + cbn. rewrite (be_back 1 h), (be_back 4 h2) by lia. rewrite Hd, Hd2. by rewrite <-!app_assoc.
    + constructor; [|done]. cbn. rewrite <-Hd, <-Hd2. done.
    + change ([(k, v)].*1) with [k]. apply completes_last; [rewrite size_dom; lia| |done]. rewrite <-(dom_put acc k v), size_dom. lia.
    + done.
Qed.

Lemma map_complete (dbg : bool) pre l s acc n :
  (6 < lenN pre)%N -> (N.of_nat (size acc) < n)%N -> completes (dom acc) n l.*1 ->
  Forall (fun kv => lenN kv.1 < 256 /\ lenN kv.2 < u32_mod)%N l ->
  resp_feed dbg (RespCtx (lenN pre) (SMap acc n)) (pre ++ entries l ++ s)
  = (resp_ctx_new, PConcluded (RValue (VMap (foldl put acc l)))).
Proof.
  revert pre acc. induction l as [|[k v] l IH]; intros pre acc Hpre Hacc Hc Hl.
  { destruct Hc as (p & x & E & _). by destruct p. }
  apply Forall_cons in Hl as [[Hk Hv] Hl]. cbn [fst snd] in Hk, Hv.
  rewrite resp_feed_eq. unfold resp_step at 1. cbn [s_stage].
  unfold resp_stage_map. cbn [s_idx].
  rewrite assert_then_true by lia. rewrite assert_then_true by (rewrite lenN_app; lia).
  assert (Hbuf : pre ++ entries ((k, v) :: l) ++ s
    = pre ++ be_enc 1 (lenN k) ++ (k ++ be_enc 4 (lenN v) ++ v ++ entries l ++ s)).
  { cbn. by rewrite <-!app_assoc. }
  rewrite Hbuf. cbn zeta.
  rewrite get_range_app_mid; [|done|by rewrite be_enc_lenN].
  assert (be_dec (be_enc 1 (lenN k)) = lenN k) as ->.
  { rewrite be_dec_enc. apply N.mod_small. done. }
  rewrite app_assoc.
  rewrite get_range_app_mid; [|by rewrite lenN_app, be_enc_lenN|
    by rewrite lenN_app, be_enc_lenN].
  rewrite (app_assoc _ k).
  rewrite get_range_app_mid; [|by rewrite !lenN_app, be_enc_lenN|
    by rewrite !lenN_app, !be_enc_lenN].
  rewrite be4 by done. rewrite (app_assoc _ (be_enc 4 _)).
  rewrite get_range_app_mid; [|by rewrite !lenN_app, !be_enc_lenN|
    by rewrite !lenN_app, !be_enc_lenN].
  change ((k, v) :: l).*1 with (k :: l.*1) in Hc.
  destruct (_ <? n)%N eqn:El.
  - apply completes_more in Hc; [|rewrite <-(dom_put acc k v), size_dom; lia].
    rewrite (app_assoc _ v).
    match goal with |- resp_feed _ (RespCtx ?i _) (?p ++ _) = _ =>
      replace i with (lenN p) by (rewrite !lenN_app, !be_enc_lenN; lia) end.
    rewrite IH; [done|rewrite !lenN_app; lia|lia|by rewrite dom_put|done].
  - apply completes_last in Hc as Hc'; [|rewrite size_dom; lia|rewrite <-(dom_put acc k v), size_dom; lia].
    apply fmap_nil_inv in Hc' as ->. done.
Qed.

(** ** All kinds *)

Definition start (k : response_type) : resp_stage :=
  match k with
  | RTBoolean => SBoolean
  | RTFloat => SFloat
  | RTInteger => SInteger
  | RTList | RTMap | RTSet => STypeInit k 2
  | RTBytes | RTString => STypeInit k 4
  | RTDispatchError => SDispatchError
  | RTParseError => SParseError
  end.

Lemma i64_enc_dec (h : bytes) : lenN h = 8%N -> i64_enc (i64_dec h) = h.
Proof.
  intros Hh. unfold i64_enc, i64_dec.
  assert (Hlt : (be_dec h < u64_mod)%N) by (apply (be_back_lt 8); lia).
  assert (E : u64_of_i64 (i64_of_u64 (be_dec h)) = be_dec h).
  { revert Hlt. generalize (be_dec h). intros n. unfold u64_of_i64, i64_of_u64, u64_mod, i64_half, i64_mod.
    intros Hn. destruct (_ <? _)%Z eqn:E.
    - rewrite Z.mod_small by lia. lia.
    - replace (Z.of_N n - 18446744073709551616)%Z with (Z.of_N n + (-1) * 18446744073709551616)%Z by lia.
      rewrite Z.mod_add by done. rewrite Z.mod_small by lia. lia. }
  rewrite E. symmetry. apply be_back. lia.
Qed.

Lemma at_cons (pre : bytes) b s i : i = lenN pre -> get_at (pre ++ b :: s) i = Some b.
Proof. apply get_at_mid. Qed.

Lemma at_nil (pre : bytes) i : i = lenN pre -> get_at (pre ++ []) i = None.
Proof. intros ->. rewrite app_nil_r, get_at_lookup. apply lookup_ge_None_2. by rewrite lenN_nat. Qed.

(** The stage that reads the length or number, when it is there. *)
Lemma type_init_reads dbg (pre : bytes) k w wN n rest :
  wN = N.of_nat w -> lenN pre = 5%N -> (n < 256 ^ N.of_nat w)%N ->
  resp_feed dbg (RespCtx 5 (STypeInit k wN)) (pre ++ be_enc w n ++ rest) =
  match k with
  | RTBytes => resp_feed dbg (RespCtx (5 + wN) (SBytes n)) (pre ++ be_enc w n ++ rest)
  | RTList => resp_feed dbg (RespCtx (5 + wN) (SList [] n)) (pre ++ be_enc w n ++ rest)
  | RTMap => if (n =? 0)%N then (resp_ctx_new, PConcluded (RValue (VMap ∅)))
             else resp_feed dbg (RespCtx (5 + wN) (SMap ∅ n)) (pre ++ be_enc w n ++ rest)
  | RTSet => resp_feed dbg (RespCtx (5 + wN) (SSet ∅ n)) (pre ++ be_enc w n ++ rest)
  | RTString => if (n =? 0)%N then (resp_ctx_new, PConcluded (RValue (VString [])))
             else resp_feed dbg (RespCtx (5 + wN) (SString n)) (pre ++ be_enc w n ++ rest)
  | _ => (RespCtx 5 (STypeInit k wN), PPanic)
  end.
Proof.
  intros -> Hp Hn. rewrite resp_feed_eq at 1. unfold resp_step. cbn [s_stage].
  unfold resp_stage_type_init. cbn [s_idx]. rewrite assert_then_true by done.
  rewrite range_there; [|lia|rewrite be_enc_lenN; lia].
  rewrite assert_then_true by (rewrite be_enc_lenN; lia).
  rewrite be_dec_enc, N.mod_small by done. cbv zeta. destruct k; try done; by destruct (n =? 0)%N.
Qed.

(** ... and when it is not. *)
Lemma type_init_short dbg (pre : bytes) k w rest :
  lenN pre = 5%N -> (lenN rest < w)%N ->
  match (resp_feed dbg (RespCtx 5 (STypeInit k w)) (pre ++ rest)).2 with
  | PReadBytes _ | PPanic => True | _ => False
  end.
Proof.
  intros Hp Hn. rewrite resp_feed_eq. unfold resp_step. cbn [s_stage].
  unfold resp_stage_type_init. cbn [s_idx]. rewrite assert_then_true by done.
  rewrite get_range_too_far by (rewrite lenN_app; lia).
  by destruct (usize_sub _ _ _).
Qed.

Lemma field_dec (w : nat) (rest : bytes) :
  (lenN rest < N.of_nat w)%N \/
  exists n t, rest = be_enc w n ++ t /\ (n < 256 ^ N.of_nat w)%N.
Proof.
  destruct (decide (lenN rest < N.of_nat w)%N) as [?|H]; [by left|right].
  assert (Ht : lenN (take w rest) = N.of_nat w) by (unfold lenN in *; rewrite take_length; lia).
  exists (be_dec (take w rest)), (drop w rest). split; [|by apply be_back_lt].
  rewrite <-(be_back w (take w rest) Ht). by rewrite take_drop.
Qed.

Lemma field_inj (w : nat) n m (s t : bytes) :
  (n < 256 ^ N.of_nat w)%N -> (m < 256 ^ N.of_nat w)%N ->
  be_enc w n ++ s = be_enc w m ++ t -> n = m /\ s = t.
Proof.
  intros Hn Hm E. apply app_inj_1 in E as [E ->].
  - split; [|done]. apply (f_equal be_dec) in E. rewrite !be_dec_enc in E.
    by rewrite !N.mod_small in E by done.
  - pose proof (be_enc_lenN w n). pose proof (be_enc_lenN w m). unfold lenN in *. lia.
Qed.

Lemma field_short (w : nat) n (s rest : bytes) :
  (lenN rest < N.of_nat w)%N -> rest <> be_enc w n ++ s.
Proof. intros H ->. rewrite lenN_app, be_enc_lenN in H. lia. Qed.

Lemma kind_reads dbg (pre : bytes) k rest r :
  lenN pre = 5%N ->
  ((resp_feed dbg (RespCtx 5 (start k)) (pre ++ rest)).2 = PConcluded r <-> reads_as dbg k rest r).
Proof.
  intros Hp. destruct k; cbn [start reads_as].
  - (* boolean *)
    rewrite resp_feed_eq. unfold resp_step. cbn [s_stage]. unfold resp_stage_boolean. cbn [s_idx].
    rewrite assert_then_true by done. destruct rest as [|b s].
    + rewrite at_nil by done. cbn. split; [done|]. by intros (? & ? & ? & _).
    + rewrite at_cons by done. cbn. split; [intros [= <-]; eauto|]. by intros (? & ? & [= <- <-] & ->).
  - (* bytes *)
    destruct (field_dec 4 rest) as [Hs|(n & t & -> & Hn)].
    { pose proof (type_init_short dbg pre RTBytes 4 rest Hp Hs) as H. split.
      - intros E. by rewrite E in H.
      - intros (bs & s & E & _). by apply field_short in E. }
    rewrite (type_init_reads dbg pre RTBytes 4 4 n t eq_refl Hp Hn). change (5 + 4)%N with 9%N.
    rewrite app_assoc. rewrite resp_feed_eq. unfold resp_step. cbn [s_stage]. unfold resp_stage_bytes. cbn [s_idx].
    rewrite assert_then_true by done.
    split.
    + intros H. destruct (assert_then _ _ _) as [[x' g]|] eqn:E; [|done].
      assert (Hnz : dbg = true -> n <> 0%N).
      { intros -> ->. by cbn in E. }
      apply assert_then_ok in E.
      destruct (get_range _ 9 _) as [bs|] eqn:E1.
      2:{ apply ask_ok in E as (? & _ & _ & ->). done. }
      injection E as <- <-. injection H as <-.
      apply range_split in E1 as (s & -> & Hb); [|rewrite lenN_app, be_enc_lenN; lia].
      assert (Hbn : n = lenN bs) by lia. subst n. exists bs, s. split; [done|]. split; [exact Hn|]. split; [|done].
      intros Hd ->. by apply Hnz.
    + intros (bs & s & E & Hlt & Hne & ->). apply field_inj in E as [-> ->]; [|done|exact Hlt].
      rewrite range_there; [|rewrite lenN_app, be_enc_lenN; lia|rewrite lenN_app, be_enc_lenN; lia].
      destruct dbg; [|done]. rewrite assert_then_true; [done|].
      destruct bs; [by destruct Hne|]. rewrite lenN_cons. lia.
  - (* float *)
    rewrite resp_feed_eq. unfold resp_step. cbn [s_stage]. unfold resp_stage_float. cbn [s_idx].
    rewrite assert_then_true by done.
    destruct (get_range _ 5 _) as [h|] eqn:E.
    + apply range_split in E as (t & -> & Hh); [|done]. cbn. split.
      * intros [= <-]. exists (be_dec h), t. split; [by rewrite <-(be_back 8 h)|]. split; [|done].
        apply (be_back_lt 8). done.
      * intros (n & s & E & Hn & ->). rewrite (be_back 8 h) in E by done.
        apply field_inj in E as [-> _]; [done|apply (be_back_lt 8); done|exact Hn].
    + cbn. split; [done|]. intros (n & s & -> & _ & _). exfalso.
      rewrite range_there in E; [done|done|rewrite be_enc_lenN; lia].
  - (* integer *)
    rewrite resp_feed_eq. unfold resp_step. cbn [s_stage]. unfold resp_stage_integer. cbn [s_idx].
    rewrite assert_then_true by done.
    destruct (get_range _ 5 _) as [h|] eqn:E.
    + apply range_split in E as (t & -> & Hh); [|done]. cbn. split.
      * intros [= <-]. exists (i64_dec h), t. split; [by rewrite i64_enc_dec|]. split; [|done].
        apply i64_dec_range. unfold lenN in Hh. lia.
      * intros (z & s & E & Hz & ->). apply app_inj_1 in E as [-> _]; [by rewrite i64_dec_enc|].
        rewrite i64_enc_len. unfold lenN in Hh. lia.
    + cbn. split; [done|]. intros (z & s & -> & _ & _). exfalso.
      rewrite range_there in E; [done|done|]. unfold lenN at 2. rewrite i64_enc_len. lia.
  - (* list *)
    destruct (field_dec 2 rest) as [Hs|(n & t & -> & Hn)].
    { pose proof (type_init_short dbg pre RTList 2 rest Hp Hs) as H. split.
      - intros E. by rewrite E in H.
      - intros (n & l & s & E & _). by apply field_short in E. }
    rewrite (type_init_reads dbg pre RTList 2 2 n t eq_refl Hp Hn). rewrite app_assoc.
    assert (Hpre : (5 + 2)%N = lenN (pre ++ be_enc 2 n)) by (rewrite lenN_app, be_enc_lenN; lia).
    rewrite Hpre. split.
    + intros H. apply (list_sound dbg r _ _ (pre ++ be_enc 2 n) t [] n eq_refl eq_refl) in H as (l & s & -> & Hl & Hc & ->).
      exists n, l, s. split_and!; try done. rewrite lenN_nil in Hc. lia.
    + intros (n' & l & s & E & Hn' & Hl & Hc & ->). apply field_inj in E as [<- ->]; [|done|done].
      rewrite list_complete; [done|lia|rewrite lenN_nil; lia|done].
  - (* map *)
    destruct (field_dec 2 rest) as [Hs|(n & t & -> & Hn)].
    { pose proof (type_init_short dbg pre RTMap 2 rest Hp Hs) as H. split.
      - intros E. by rewrite E in H.
      - intros (n & l & s & E & _). by apply field_short in E. }
    rewrite (type_init_reads dbg pre RTMap 2 2 n t eq_refl Hp Hn). rewrite app_assoc.
    assert (Hpre : (5 + 2)%N = lenN (pre ++ be_enc 2 n)) by (rewrite lenN_app, be_enc_lenN; lia).
    rewrite Hpre. destruct (n =? 0)%N eqn:Ez.
    { assert (Hn0 : n = 0%N) by lia. subst n. cbn [snd]. split.
      - intros [= <-]. exists 0%N, [], t. split_and!; try done. by left.
      - intros (n' & l & s & E & Hn' & Hl & Hc & ->). apply field_inj in E as [<- ->]; [|done|done].
        destruct Hc as [[_ ->]|[Hd (p & x & Hx & _)]]; [done|]. exfalso.
        unfold distinct in Hd. assert (Hz : size (list_to_set l.*1 : gset bytes) = 0) by lia.
        apply size_empty_inv, (leibniz_equiv (A := gset bytes)) in Hz. rewrite Hx in Hz. set_solver. }
    split.
    + intros H. apply (map_sound dbg r _ _ (pre ++ be_enc 2 n) t ∅ n eq_refl eq_refl) in H as (l & s & -> & Hl & Hc & ->); [|rewrite map_size_empty; lia].
      exists n, l, s. split_and!; try done. right. rewrite dom_empty_L in Hc. by apply completes_reaches.
    + intros (n' & l & s & E & Hn' & Hl & Hc & ->). apply field_inj in E as [<- ->]; [|done|done].
      destruct Hc as [[-> _]|Hc]; [done|].
      rewrite map_complete; [done|lia|rewrite map_size_empty; lia| |done].
      rewrite dom_empty_L. by apply completes_reaches.
  - (* set *)
    destruct (field_dec 2 rest) as [Hs|(n & t & -> & Hn)].
    { pose proof (type_init_short dbg pre RTSet 2 rest Hp Hs) as H. split.
      - intros E. by rewrite E in H.
      - intros (n & l & s & E & _). by apply field_short in E. }
    rewrite (type_init_reads dbg pre RTSet 2 2 n t eq_refl Hp Hn). rewrite app_assoc.
    assert (Hpre : (5 + 2)%N = lenN (pre ++ be_enc 2 n)) by (rewrite lenN_app, be_enc_lenN; lia).
    rewrite Hpre. split.
    + intros H. apply (set_sound dbg r _ _ (pre ++ be_enc 2 n) t ∅ n eq_refl eq_refl) in H as (l & s & -> & Hl & Hc & ->); [|rewrite size_empty; lia].
      exists n, l, s. split_and!; try done; [by apply completes_reaches|].
      by rewrite (left_id_L ∅ (∪)).
    + intros (n' & l & s & E & Hn' & Hl & Hc & ->). apply field_inj in E as [<- ->]; [|done|done].
      rewrite set_complete; [by rewrite (left_id_L ∅ (∪))|lia|rewrite size_empty; lia|by apply completes_reaches|done].
  - (* string *)
    destruct (field_dec 4 rest) as [Hs|(n & t & -> & Hn)].
    { pose proof (type_init_short dbg pre RTString 4 rest Hp Hs) as H. split.
      - intros E. by rewrite E in H.
      - intros (bs & s & E & _). by apply field_short in E. }
    rewrite (type_init_reads dbg pre RTString 4 4 n t eq_refl Hp Hn). change (5 + 4)%N with 9%N.
    destruct (n =? 0)%N eqn:Ez.
    { assert (Hn0 : n = 0%N) by lia. subst n. cbn [snd]. split.
      - intros [= <-]. exists [], t. split_and!; try done. by exists [].
      - intros (bs & s & E & Hlt & Ht & ->). apply field_inj in E as [E _]; [|done|exact Hlt].
        by destruct bs. }
    rewrite app_assoc. rewrite resp_feed_eq. unfold resp_step. cbn [s_stage]. unfold resp_stage_string. cbn [s_idx].
    rewrite !assert_then_true by lia. split.
    + intros H. destruct (get_range _ 9 _) as [bs|] eqn:E1.
      2:{ by destruct (usize_sub _ _ _). }
      apply range_split in E1 as (s & -> & Hb); [|rewrite lenN_app, be_enc_lenN; lia].
      assert (Hbn : n = lenN bs) by lia. subst n.
      unfold from_utf8 in H. destruct (utf8_valid bs) eqn:Hu; [|done]. injection H as <-.
      exists bs, s. split_and!; try done. by apply text_iff.
    + intros (bs & s & E & Hlt & Ht & ->). apply field_inj in E as [-> ->]; [|done|exact Hlt].
      rewrite range_there; [|rewrite lenN_app, be_enc_lenN; lia|rewrite lenN_app, be_enc_lenN; lia].
      apply text_iff in Ht. unfold from_utf8. by rewrite Ht.
  - (* parse error *)
    rewrite resp_feed_eq. unfold resp_step. cbn [s_stage]. unfold resp_stage_parse_error. cbn [s_idx].
    rewrite assert_then_true by done. destruct rest as [|b s].
    + rewrite at_nil by done. cbn. split; [done|]. by intros (? & ? & ? & ? & _).
    + rewrite at_cons by done. destruct (parse_error_of_u8 (b2n b)) as [err|] eqn:E; cbn.
      * split; [intros [= <-]; eauto 6|]. intros (b' & s' & err' & [= <- <-] & E' & ->). congruence.
      * split; [done|]. intros (b' & s' & err' & [= <- <-] & E' & ->). congruence.
  - (* dispatch error *)
    rewrite resp_feed_eq. unfold resp_step. cbn [s_stage]. unfold resp_stage_dispatch_error. cbn [s_idx].
    rewrite assert_then_true by done. destruct rest as [|b s].
    + rewrite at_nil by done. cbn. split; [done|]. by intros (? & ? & ? & ? & _).
    + rewrite at_cons by done. destruct (dispatch_error_of_u8 (b2n b)) as [err|] eqn:E; cbn.
      * split; [intros [= <-]; eauto 6|]. intros (b' & s' & err' & [= <- <-] & E' & ->). congruence.
      * split; [done|]. intros (b' & s' & err' & [= <- <-] & E' & ->). congruence.
Qed.

(** ** Errors *)

Definition quiet (x : resp_ctx) : Prop :=
  match s_stage x with
  | SInit | SDetermineType | STypeInit _ _ | SString _ => False
  | _ => True
  end.

Lemma quiet_step dbg x buf x' g :
  quiet x -> resp_step dbg x buf = Ok (x', g) ->
  (g = GContinue -> quiet x') /\ (forall err, g <> GErr err).
Proof.
  unfold quiet, resp_step. intros Hq.
  destruct (s_stage x) as [| |k rl| |len| | |acc len|acc len| | |acc len|len]; try done.
  all: unfold resp_stage_boolean,
    resp_stage_bytes, resp_stage_float, resp_stage_integer, resp_stage_list, resp_stage_map,
    resp_stage_dispatch_error, resp_stage_parse_error, resp_stage_set.
  all: cbv zeta; intros H; repeat apply assert_then_ok in H.
  all: repeat match type of H with context [match ?y with _ => _ end] => destruct y end.
  all: try (apply ask_ok in H as (? & _ & -> & ->); done).
  all: try done; by injection H as <- <-.
Qed.

Lemma quiet_feed dbg buf x err : quiet x -> (resp_feed dbg x buf).2 <> PError err.
Proof.
  revert x. apply (resp_feed_ind dbg buf (fun x => quiet x -> (resp_feed dbg x buf).2 <> PError err)).
  - intros x x' E IH Hq. rewrite resp_feed_eq, E. apply IH. by eapply quiet_step.
  - intros x Hn Hq. rewrite resp_feed_eq.
    destruct (resp_step dbg x buf) as [[x' [e|[r|m]|]]|] eqn:E; try done.
    + destruct (quiet_step _ _ _ _ _ Hq E) as [_ H]. by destruct (H e).
    + by destruct (Hn x').
Qed.

Lemma kind_rejects dbg (pre : bytes) k rest err :
  lenN pre = 5%N ->
  ((resp_feed dbg (RespCtx 5 (start k)) (pre ++ rest)).2 = PError err <->
   k = RTString /\ (exists t s, rest = be_enc 4 (lenN t) ++ t ++ s /\ (lenN t < u32_mod)%N /\ ~ is_text t) /\
   err = XStringInvalid).
Proof.
  intros Hp.
  assert (Hq : quiet (RespCtx 5 (start k)) ->
    ((resp_feed dbg (RespCtx 5 (start k)) (pre ++ rest)).2 = PError err <-> k = RTString /\
     (exists t s, rest = be_enc 4 (lenN t) ++ t ++ s /\ (lenN t < u32_mod)%N /\ ~ is_text t) /\
     err = XStringInvalid)).
  { intros Hq. split; [intros H; by eapply quiet_feed in H|]. intros [-> _]. done. }
  assert (Hc : forall w wN, wN = N.of_nat w -> start k = STypeInit k wN -> k <> RTString ->
    ((resp_feed dbg (RespCtx 5 (start k)) (pre ++ rest)).2 = PError err <-> k = RTString /\
     (exists t s, rest = be_enc 4 (lenN t) ++ t ++ s /\ (lenN t < u32_mod)%N /\ ~ is_text t) /\
     err = XStringInvalid)).
  { intros w wN Hw Hst Hk. rewrite Hst. split; [|by intros [-> _]]. intros H. exfalso.
    destruct (field_dec w rest) as [Hs|(n & t & -> & Hn)].
    - rewrite <-Hw in Hs. pose proof (type_init_short dbg pre k wN rest Hp Hs) as H'. by rewrite H in H'.
    - rewrite (type_init_reads dbg pre k w wN n t Hw Hp Hn) in H.
      destruct k; try done; try (by eapply quiet_feed in H).
      destruct (n =? 0)%N; [done|]. by eapply quiet_feed in H. }
  destruct k; try (by apply Hq); try (by apply (Hc 4 4%N)); try (by apply (Hc 2 2%N)).
  clear Hq Hc. cbn [start].
  destruct (field_dec 4 rest) as [Hs|(n & t & -> & Hn)].
  { pose proof (type_init_short dbg pre RTString 4 rest Hp Hs) as H. split.
    - intros E. by rewrite E in H.
    - intros (_ & (bs & s & E & _) & _). by apply field_short in E. }
  rewrite (type_init_reads dbg pre RTString 4 4 n t eq_refl Hp Hn). change (5 + 4)%N with 9%N.
  destruct (n =? 0)%N eqn:Ez.
  { assert (Hn0 : n = 0%N) by lia. subst n. cbn [snd]. split; [done|].
    intros (_ & (bs & s & E & Hlt & Ht) & ->). apply field_inj in E as [E _]; [|done|exact Hlt].
    destruct bs; [|done]. destruct Ht. by exists []. }
  rewrite app_assoc. rewrite resp_feed_eq. unfold resp_step. cbn [s_stage]. unfold resp_stage_string. cbn [s_idx].
  rewrite !assert_then_true by lia. split.
  - intros H. destruct (get_range _ 9 _) as [bs|] eqn:E1.
    2:{ by destruct (usize_sub _ _ _). }
    apply range_split in E1 as (s & -> & Hb); [|rewrite lenN_app, be_enc_lenN; lia].
    assert (Hbn : n = lenN bs) by lia. subst n.
    unfold from_utf8 in H. destruct (utf8_valid bs) eqn:Hu; [done|]. injection H as <-.
    split; [done|]. split; [|done]. exists bs, s. split_and!; try done. rewrite text_iff. by rewrite Hu.
  - intros (_ & (bs & s & E & Hlt & Ht) & ->). apply field_inj in E as [-> ->]; [|done|exact Hlt].
    rewrite range_there; [|rewrite lenN_app, be_enc_lenN; lia|rewrite lenN_app, be_enc_lenN; lia].
    rewrite text_iff in Ht. unfold from_utf8. by destruct (utf8_valid bs).
Qed.

Lemma of_number n k : response_type_of_u8 n = Some k <-> n = kind_number k.
Proof.
  split.
  - unfold response_type_of_u8. intros H.
    repeat match type of H with context [match ?y with _ => _ end] => destruct y; try done end;
      by injection H as <-.
  - intros ->. by destruct k.
Qed.

Lemma message_feed dbg buf kind rest :
  message_in buf kind rest ->
  exists pre, buf = pre ++ rest /\ lenN pre = 5%N /\
    resp_feed dbg resp_ctx_new buf =
    match response_type_of_u8 (b2n kind) with
    | Some k => resp_feed dbg (RespCtx 5 (start k)) buf
    | None => (RespCtx 4 SDetermineType, PError XResponseTypeInvalid)
    end.
Proof.
  intros Hm. pose proof (whole_message _ _ _ Hm dbg) as Hw. destruct Hm as (h & -> & Hh & Hl).
  exists (h ++ [kind]). split; [by rewrite <-app_assoc|]. split; [rewrite lenN_app, lenN_one; lia|].
  rewrite Hw. rewrite resp_feed_eq. unfold resp_step. cbn [s_stage]. unfold resp_stage_determine. cbn [s_idx].
  rewrite assert_then_true by done. rewrite at_cons by done.
  destruct (response_type_of_u8 (b2n kind)) as [k|]; [|done]. by destruct k.
Qed.

Lemma no_message_asks dbg buf :
  (forall kind rest, ~ message_in buf kind rest) ->
  exists n, (resp_feed dbg resp_ctx_new buf).2 = PReadBytes n.
Proof.
  intros Hno. destruct (decide (lenN buf < 4)%N) as [Hs|Hs].
  { destruct (c16_incomplete dbg buf) as (n & -> & Hn); [by left|]. eauto. }
  set (h := take 4 buf). set (t := drop 4 buf).
  assert (Hbuf : buf = h ++ t) by (symmetry; apply take_drop).
  assert (Hh : lenN h = 4%N) by (unfold h, lenN in *; rewrite take_length; lia).
  clearbody h t. subst buf.
  destruct (decide (lenN t < be_dec h)%N) as [Hlt|Hge].
  { destruct (c16_incomplete dbg (h ++ t)) as (n & -> & Hn); [right; eauto|]. eauto. }
  destruct t as [|kind rest].
  2:{ exfalso. eapply Hno. exists h. split; [done|]. split; [done|]. rewrite lenN_cons in Hge. lia. }
  rewrite lenN_nil in Hge.
  rewrite resp_feed_eq. unfold resp_step. cbn [s_stage resp_ctx_new].
  unfold resp_stage_init. cbn [s_idx]. rewrite assert_then_true by done.
  replace (get_range (h ++ []) 0 4) with (Some h).
  2:{ symmetry. pose proof (get_range_app_mid [] h [] 0 4) as H. cbn [app] in H.
      apply H; [done|]. rewrite lenN_nil. lia. }
  cbv zeta. replace (_ <? _)%N with false by (rewrite lenN_app, lenN_nil; lia).
  rewrite resp_feed_eq. unfold resp_step. cbn [s_stage]. unfold resp_stage_determine. cbn [s_idx].
  rewrite assert_then_true by done. rewrite at_nil by (symmetry; exact Hh). cbn. eauto.
Qed.

Lemma c99_accepts dbg buf r :
  (resp_feed dbg resp_ctx_new buf).2 = PConcluded r <-> accepted dbg buf r.
Proof.
  destruct (message_dec buf) as [(kind & rest & Hm)|Hno].
  - destruct (message_feed dbg _ _ _ Hm) as (pre & Hb & Hp & ->). split.
    + destruct (response_type_of_u8 (b2n kind)) as [k|] eqn:Hk; [|done].
      rewrite Hb. intros H. apply kind_reads in H; [|done]. exists k, kind, rest. rewrite <-Hb.
      split; [done|]. split; [by apply of_number|done].
    + intros (k & kind' & rest' & Hm' & Hk & Hr). destruct (message_in_inj _ _ _ _ _ Hm Hm') as [<- <-].
      apply of_number in Hk. rewrite Hk, Hb. by apply kind_reads.
  - destruct (no_message_asks dbg buf Hno) as [n ->]. split; [done|].
    intros (k & kind & rest & Hm & _). by apply Hno in Hm.
Qed.

Lemma c99_rejects dbg buf err :
  (resp_feed dbg resp_ctx_new buf).2 = PError err <-> rejected buf err.
Proof.
  destruct (message_dec buf) as [(kind & rest & Hm)|Hno].
  - destruct (message_feed dbg _ _ _ Hm) as (pre & Hb & Hp & ->). split.
    + intros H. exists kind, rest. split; [done|].
      destruct (response_type_of_u8 (b2n kind)) as [k|] eqn:Hk.
      * rewrite Hb in H. apply kind_rejects in H as (-> & Ht & ->); [|done]. right.
        split; [by apply of_number|done].
      * injection H as <-. left. split; [|done]. intros k Hk'. apply of_number in Hk'. congruence.
    + intros (kind' & rest' & Hm' & Hr). destruct (message_in_inj _ _ _ _ _ Hm Hm') as [<- <-].
      destruct Hr as [[Hk ->]|(Hk & Ht & ->)].
      * destruct (response_type_of_u8 (b2n kind)) as [k|] eqn:Hk'; [|done].
        apply of_number in Hk'. by destruct (Hk k).
      * apply of_number in Hk. rewrite Hk, Hb. by apply kind_rejects.
  - destruct (no_message_asks dbg buf Hno) as [n ->]. split; [done|].
    intros (kind & rest & Hm & _). by apply Hno in Hm.
Qed.

(** One input is taken for one response only. *)
Lemma c99_unambiguous dbg buf r r' : accepted dbg buf r -> accepted dbg buf r' -> r = r'.
Proof. rewrite <-!c99_accepts. congruence. Qed.

(** In all other cases it asks for more bytes. *)
Lemma c99_asks dbg buf :
  (exists n, (resp_feed dbg resp_ctx_new buf).2 = PReadBytes n) <->
  (forall r, ~ accepted dbg buf r) /\ (forall err, ~ rejected buf err) /\ ~ crashes dbg buf.
Proof.
  rewrite <-c16_crashes. split.
  - intros [n H]. split_and!.
    + intros r Hr. apply c99_accepts in Hr. congruence.
    + intros err Hr. apply (c99_rejects dbg) in Hr. congruence.
    + congruence.
  - intros (H1 & H2 & H3). pose proof (resp_feed_no_fuel dbg resp_ctx_new buf) as H4.
    destruct (resp_feed dbg resp_ctx_new buf).2 as [r|n|err| |] eqn:E; [|by eauto|..]; try done.
    + by destruct (H1 r); apply c99_accepts.
    + by destruct (H2 err); apply (c99_rejects dbg).
Qed.
