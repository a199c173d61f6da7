(** How many bytes a response parser asks for: lemmas for C122. *)
From Verif Require Import Bytes BytesFacts Utf8 Value CommandId Response RespContext
  WireSpec IdsFacts ResponseFacts RespContextFacts RespProps RespExact Utf8Spec Utf8Facts RespReadSpec RespRead RespAskSpec.
From stdpp Require Import gmap list.
From Coq Require Import NArith ZArith Lia.
From Coq Require Import ZifyBool ZifyNat ZifyN.
From Coq.Init Require Import Byte.

(** ** One step *)

Lemma remaining_is dbg start read to :
  (0 < start)%N -> (read < start + to)%N -> remaining_bytes dbg start read to = Ok (start + to - read)%N.
Proof.
  intros. unfold remaining_bytes, debug_assert.
  replace (0 <? start)%N with true by lia. replace (read <=? start + to)%N with true by lia.
  by rewrite !andb_false_r.
Qed.

(** An item: whole, or the beginning of one. *)
Lemma item_dec (w : nat) (t : bytes) :
  (lenN t < N.of_nat w)%N \/
  (exists m u, t = be_enc w m ++ u /\ (m < 256 ^ N.of_nat w)%N /\ (lenN u < m)%N) \/
  (exists a u, t = be_enc w (lenN a) ++ a ++ u /\ (lenN a < 256 ^ N.of_nat w)%N).
Proof.
  destruct (field_dec w t) as [?|(m & u & -> & Hm)]; [by left|right].
  destruct (decide (lenN u < m)%N) as [?|Hge]; [left; by exists m, u|right].
  exists (take (N.to_nat m) u), (drop (N.to_nat m) u).
  assert (E : lenN (take (N.to_nat m) u) = m) by (unfold lenN in *; rewrite take_length; lia).
  rewrite E, take_drop. done.
Qed.

Lemma be_dec_back (w : nat) m : (m < 256 ^ N.of_nat w)%N -> be_dec (be_enc w m) = m.
Proof. intros H. by rewrite be_dec_enc, N.mod_small. Qed.

(** Reading a field and what follows. *)
Lemma range_field (pre : bytes) (w : nat) m u i j : i = lenN pre -> j = (i + N.of_nat w)%N ->
  get_range (pre ++ be_enc w m ++ u) i j = Some (be_enc w m).
Proof. intros -> ->. apply range_there; [done|by rewrite be_enc_lenN]. Qed.
Lemma range_short (pre t : bytes) i j : i = lenN pre -> (lenN t < j - i)%N -> get_range (pre ++ t) i j = None.
Proof. intros -> H. apply get_range_too_far. rewrite lenN_app. lia. Qed.

(** What is at hand decides what is asked for. *)
Lemma item_first (w : nat) t m : (lenN t < N.of_nat w)%N -> short_item w t m <-> m = (N.of_nat w - lenN t)%N.
Proof.
  intros Ht. split.
  - intros [[_ ->]|(k & u & -> & _)]; [done|]. rewrite lenN_app, be_enc_lenN in Ht. lia.
  - intros ->. left. done.
Qed.
Lemma item_then (w : nat) k u m : (k < 256 ^ N.of_nat w)%N -> (lenN u < k)%N ->
  short_item w (be_enc w k ++ u) m <-> m = (k - lenN u)%N.
Proof.
  intros Hk Hu. split.
  - intros [[Hlt _]|(k' & u' & E & Hk' & Hu' & ->)]; [rewrite lenN_app, be_enc_lenN in Hlt; lia|].
    by apply (field_inj w) in E as [-> ->].
  - intros ->. right. by exists k, u.
Qed.
Lemma member_first at_ t m : (lenN t < 2)%N -> short_member at_ t m <-> m = (2 - lenN t)%N.
Proof.
  intros Ht. split.
  - intros [[_ ->]|(k & u & -> & _)]; [done|]. rewrite lenN_app, be_enc_lenN in Ht. lia.
  - intros ->. left. done.
Qed.
Lemma member_then at_ k u m : (k < u16_mod)%N -> (lenN u < k)%N ->
  short_member at_ (be_enc 2 k ++ u) m <-> m = (k - lenN u + (at_ + 2))%N.
Proof.
  intros Hk Hu. split.
  - intros [[Hlt _]|(k' & u' & E & Hk' & Hu' & ->)]; [rewrite lenN_app, be_enc_lenN in Hlt; lia|].
    by apply (field_inj 2) in E as [-> ->].
  - intros ->. right. by exists k, u.
Qed.

Lemma read_iff (n m : N) (P : Prop) : (P <-> m = n) -> PReadBytes n = PReadBytes m <-> P.
Proof. intros ->. split; [by intros [= ->]|by intros ->]. Qed.

Lemma take_lenN n (t : bytes) : (n <= lenN t)%N -> lenN (take (N.to_nat n) t) = n.
Proof. unfold lenN. rewrite take_length. lia. Qed.

Lemma field_length (w : nat) k : length (be_enc w k) = w.
Proof. pose proof (be_enc_lenN w k) as E. unfold lenN in E. lia. Qed.

(** ** Lists *)

Lemma list_step_short (dbg : bool) pre t acc n m : (6 < lenN pre)%N ->
  (lenN t < 4)%N \/ (exists k u, t = be_enc 4 k ++ u /\ (k < 256 ^ N.of_nat 4)%N /\ (lenN u < k)%N) ->
  (resp_feed dbg (RespCtx (lenN pre) (SList acc n)) (pre ++ t)).2 = PReadBytes m <-> short_item 4 t m.
Proof.
  intros Hp Ht. rewrite resp_feed_eq. unfold resp_step. cbn [s_stage]. unfold resp_stage_list. cbn [s_idx].
  rewrite !assert_then_true by (rewrite ?lenN_app; lia). cbn zeta. destruct Ht as [Ht|(k & u & -> & Hk & Hu)].
  - rewrite range_short by lia. rewrite remaining_is by (rewrite ?lenN_app; lia). cbn. apply read_iff.
    rewrite item_first by done. rewrite lenN_app. split; intros ->; lia.
  - rewrite range_field by done. rewrite be_dec_back by done. rewrite app_assoc.
    rewrite range_short by (rewrite ?lenN_app, ?be_enc_lenN; lia).
    unfold usize_sub. rewrite usub_ok by (rewrite !lenN_app, be_enc_lenN; lia). cbn. apply read_iff.
    rewrite item_then by done. rewrite !lenN_app, be_enc_lenN. split; intros ->; lia.
Qed.

Lemma list_step_item (dbg : bool) pre a u acc n : (6 < lenN pre)%N -> (lenN a < 256 ^ N.of_nat 4)%N ->
  resp_feed dbg (RespCtx (lenN pre) (SList acc n)) (pre ++ be_enc 4 (lenN a) ++ a ++ u) =
  if (lenN acc + 1 <? n)%N
  then resp_feed dbg (RespCtx (lenN (pre ++ be_enc 4 (lenN a) ++ a)) (SList (acc ++ [a]) n)) ((pre ++ be_enc 4 (lenN a) ++ a) ++ u)
  else (resp_ctx_new, PConcluded (RValue (VList (acc ++ [a])))).
Proof.
  intros Hp Ha. rewrite resp_feed_eq at 1. unfold resp_step. cbn [s_stage]. unfold resp_stage_list. cbn [s_idx].
  rewrite !assert_then_true by (rewrite ?lenN_app; lia). cbn zeta.
  rewrite range_field by done. rewrite be_dec_back by done. rewrite app_assoc.
  rewrite range_there; [|by rewrite lenN_app, be_enc_lenN|rewrite lenN_app, be_enc_lenN; lia].
  rewrite (lenN_app acc), lenN_one. destruct (_ <? _)%N; [|done].
  rewrite <-!app_assoc. do 2 f_equal. rewrite !lenN_app, be_enc_lenN. lia.
Qed.

Lemma items_more a l t : items (a :: l) ++ t = be_enc 4 (lenN a) ++ a ++ items l ++ t.
Proof. unfold items. cbn [map concat]. by rewrite <-!app_assoc. Qed.

Lemma list_asks (dbg : bool) n m rest : forall pre acc, (6 < lenN pre)%N -> (lenN acc < N.max 1 n)%N ->
  (resp_feed dbg (RespCtx (lenN pre) (SList acc n)) (pre ++ rest)).2 = PReadBytes m <->
  exists l t, rest = items l ++ t /\ Forall (fun x => lenN x < u32_mod)%N l /\ (lenN acc + lenN l < N.max 1 n)%N /\
    short_item 4 t m.
Proof.
  induction rest as [rest IH] using (well_founded_induction (Wf_nat.well_founded_ltof _ (@length byte))).
  intros pre acc Hp Hacc. split.
  - intros H. destruct (item_dec 4 rest) as [Hs|[Hs|(a & u & -> & Ha)]].
    + exists [], rest. split_and!; [done|constructor|rewrite lenN_nil; lia|].
      eapply list_step_short; [done|by left|exact H].
    + exists [], rest. split_and!; [done|constructor|rewrite lenN_nil; lia|].
      eapply list_step_short; [done|by right|exact H].
    + rewrite list_step_item in H by done. destruct (_ <? _)%N eqn:El; [|done].
      apply IH in H as (l & t & -> & Hl & Hn & Ht).
      * exists (a :: l), t. rewrite items_more. split_and!; [done|by constructor| |done].
        rewrite lenN_app, lenN_one in Hn. rewrite lenN_cons. lia.
      * unfold Wf_nat.ltof. rewrite !app_length, (field_length 4); lia.
      * rewrite !lenN_app. lia.
      * rewrite lenN_app, lenN_one. lia.
  - intros (l & t & -> & Hl & Hn & Ht). destruct l as [|a l].
    + cbn [items map concat app]. apply list_step_short; [done| |done].
      destruct Ht as [[? _]|(k & u & ? & ? & ? & _)]; [by left|right; by exists k, u].
    + apply Forall_cons in Hl as [Ha Hl]. rewrite lenN_cons in Hn. rewrite items_more, list_step_item by done.
      replace (lenN acc + 1 <? n)%N with true by lia.
      apply IH.
      * unfold Wf_nat.ltof. rewrite items_more, !app_length, (field_length 4); lia.
      * rewrite !lenN_app. lia.
      * rewrite lenN_app, lenN_one. lia.
      * exists l, t. split_and!; try done. rewrite lenN_app, lenN_one. lia.
Qed.

(** ** Sets *)

Lemma set_step_short (dbg : bool) pre t acc n m : (6 < lenN pre)%N ->
  (lenN t < 2)%N \/ (exists k u, t = be_enc 2 k ++ u /\ (k < 256 ^ N.of_nat 2)%N /\ (lenN u < k)%N) ->
  (resp_feed dbg (RespCtx (lenN pre) (SSet acc n)) (pre ++ t)).2 = PReadBytes m <-> short_member (lenN pre) t m.
Proof.
  intros Hp Ht. rewrite resp_feed_eq. unfold resp_step. cbn [s_stage]. unfold resp_stage_set. cbn [s_idx].
  rewrite !assert_then_true by (rewrite ?lenN_app; lia). cbn zeta. destruct Ht as [Ht|(k & u & -> & Hk & Hu)].
  - rewrite range_short by lia. rewrite remaining_is by (rewrite ?lenN_app; lia). cbn. apply read_iff.
    rewrite member_first by done. rewrite lenN_app. split; intros ->; lia.
  - rewrite range_field by done. rewrite be_dec_back by done. rewrite app_assoc.
    rewrite range_short by (rewrite ?lenN_app, ?be_enc_lenN; lia).
    rewrite remaining_is by (rewrite ?lenN_app, ?be_enc_lenN; lia). cbn. apply read_iff.
    rewrite member_then by done. rewrite !lenN_app, be_enc_lenN. split; intros ->; lia.
Qed.

Lemma set_step_member (dbg : bool) pre a u acc n : (6 < lenN pre)%N -> (lenN a < 256 ^ N.of_nat 2)%N ->
  resp_feed dbg (RespCtx (lenN pre) (SSet acc n)) (pre ++ be_enc 2 (lenN a) ++ a ++ u) =
  if (N.of_nat (size ({[a]} ∪ acc)) <? n)%N
  then resp_feed dbg (RespCtx (lenN (pre ++ be_enc 2 (lenN a) ++ a)) (SSet ({[a]} ∪ acc) n)) ((pre ++ be_enc 2 (lenN a) ++ a) ++ u)
  else (resp_ctx_new, PConcluded (RValue (VSet ({[a]} ∪ acc)))).
Proof.
  intros Hp Ha. rewrite resp_feed_eq at 1. unfold resp_step. cbn [s_stage]. unfold resp_stage_set. cbn [s_idx].
  rewrite !assert_then_true by (rewrite ?lenN_app; lia). cbn zeta.
  rewrite range_field by done. rewrite be_dec_back by done. rewrite app_assoc.
  rewrite range_there; [|by rewrite lenN_app, be_enc_lenN|rewrite lenN_app, be_enc_lenN; lia].
  destruct (_ <? _)%N; [|done].
  rewrite <-!app_assoc. do 2 f_equal. rewrite !lenN_app, be_enc_lenN. lia.
Qed.

Lemma members_more a l t : members (a :: l) ++ t = be_enc 2 (lenN a) ++ a ++ members l ++ t.
Proof. unfold members. cbn [map concat]. by rewrite <-!app_assoc. Qed.

Lemma set_asks (dbg : bool) n m rest : forall pre (acc : gset bytes), (6 < lenN pre)%N -> (N.of_nat (size acc) < N.max 1 n)%N ->
  (resp_feed dbg (RespCtx (lenN pre) (SSet acc n)) (pre ++ rest)).2 = PReadBytes m <->
  exists l t, rest = members l ++ t /\ Forall (fun x => lenN x < u16_mod)%N l /\
    (N.of_nat (size (acc ∪ list_to_set l)) < N.max 1 n)%N /\ short_member (lenN pre + lenN (members l)) t m.
Proof.
  induction rest as [rest IH] using (well_founded_induction (Wf_nat.well_founded_ltof _ (@length byte))).
  intros pre acc Hp Hacc.
  assert (Hsz : forall a : bytes, 1 <= size ({[a]} ∪ acc)).
  { intros a. etrans; [|apply (subseteq_size {[a]}); set_solver]. by rewrite size_singleton. }
  assert (Hun : forall (a : bytes) l, acc ∪ list_to_set (a :: l) = {[a]} ∪ acc ∪ list_to_set l).
  { intros a l. set_solver. }
  split.
  - intros H. destruct (item_dec 2 rest) as [Hs|[Hs|(a & u & -> & Ha)]].
    + exists [], rest. split_and!; [done|constructor|cbn; by rewrite (right_id_L ∅ (∪))|].
      cbn [members map concat]. rewrite lenN_nil, N.add_0_r. eapply set_step_short; [done|by left|exact H].
    + exists [], rest. split_and!; [done|constructor|cbn; by rewrite (right_id_L ∅ (∪))|].
      cbn [members map concat]. rewrite lenN_nil, N.add_0_r. eapply set_step_short; [done|by right|exact H].
    + rewrite set_step_member in H by done. destruct (_ <? _)%N eqn:El; [|done].
      apply IH in H as (l & t & -> & Hl & Hn & Ht).
      * exists (a :: l), t. rewrite members_more. split_and!; [done|by constructor|by rewrite Hun|].
        rewrite !lenN_app, be_enc_lenN in Ht. unfold members in *. cbn [map concat]. rewrite !lenN_app, be_enc_lenN.
        by rewrite N.add_assoc, N.add_assoc in *.
      * unfold Wf_nat.ltof. rewrite !app_length, (field_length 2); lia.
      * rewrite !lenN_app. lia.
      * lia.
  - intros (l & t & -> & Hl & Hn & Ht). destruct l as [|a l].
    + cbn [members map concat app] in *. rewrite lenN_nil, N.add_0_r in Ht. apply set_step_short; [done| |done].
      destruct Ht as [[? _]|(k & u & ? & ? & ? & _)]; [by left|right; by exists k, u].
    + apply Forall_cons in Hl as [Ha Hl]. rewrite members_more, set_step_member by done. rewrite Hun in Hn.
      assert (Hle : size ({[a]} ∪ acc) <= size ({[a]} ∪ acc ∪ list_to_set l)) by (apply subseteq_size; set_solver).
      pose proof (Hsz a). replace (N.of_nat (size ({[a]} ∪ acc)) <? n)%N with true by lia.
      apply IH.
      * unfold Wf_nat.ltof. rewrite members_more, !app_length, (field_length 2); lia.
      * rewrite !lenN_app. lia.
      * lia.
      * exists l, t. split_and!; try done.
        unfold members in *. cbn [map concat] in Ht. rewrite !lenN_app, be_enc_lenN in *.
        by rewrite !N.add_assoc in *.
Qed.

(** ** Maps *)

Lemma entry_dec at_ t : (exists m, short_entry at_ t m) \/
  exists k v u, t = be_enc 1 (lenN k) ++ k ++ be_enc 4 (lenN v) ++ v ++ u /\ (lenN k < 256)%N /\ (lenN v < u32_mod)%N.
Proof.
  destruct (item_dec 1 t) as [Hs|[(k & u & -> & Hk & Hu)|(k & u & -> & Hk)]].
  - left. exists 1%N. left. split; [|done]. destruct t; [done|]. rewrite lenN_cons in Hs. lia.
  - left. eexists. right. left. by exists k, u.
  - destruct (item_dec 4 u) as [Hs|[(m & s & -> & Hm & Hs)|(v & s & -> & Hv)]].
    + left. eexists. right. right. left. by exists k, u.
    + left. eexists. right. right. right. by exists k, m, s.
    + right. by exists k, v, s.
Qed.

Lemma map_step_short (dbg : bool) pre t acc n m : (6 < lenN pre)%N -> short_entry (lenN pre) t m ->
  (resp_feed dbg (RespCtx (lenN pre) (SMap acc n)) (pre ++ t)).2 = PReadBytes m.
Proof.
  intros Hp Ht. rewrite resp_feed_eq. unfold resp_step. cbn [s_stage]. unfold resp_stage_map. cbn [s_idx].
  rewrite !assert_then_true by (rewrite ?lenN_app; lia). cbn zeta.
  destruct Ht as [[-> ->]|[(k & u & -> & Hk & Hu & ->)|[(k & u & -> & Hk & Hu & ->)|(k & j & u & -> & Hk & Hj & Hu & ->)]]].
  - rewrite range_short by (rewrite ?lenN_nil; lia). rewrite remaining_is by (rewrite ?lenN_app, ?lenN_nil; lia). cbn. f_equal.
    rewrite lenN_app, lenN_nil. lia.
  - rewrite range_field by done. rewrite be_dec_back by done. rewrite app_assoc.
    rewrite range_short by (rewrite ?lenN_app, ?be_enc_lenN; lia).
    rewrite remaining_is by (rewrite ?lenN_app, ?be_enc_lenN; lia). cbn. f_equal.
    rewrite !lenN_app, be_enc_lenN. lia.
  - rewrite range_field by done. rewrite be_dec_back by done. rewrite app_assoc.
    rewrite range_there; [|by rewrite lenN_app, be_enc_lenN|rewrite lenN_app, be_enc_lenN; lia].
    rewrite (app_assoc _ k). rewrite range_short by (rewrite ?lenN_app, ?be_enc_lenN; lia).
    rewrite remaining_is by (rewrite ?lenN_app, ?be_enc_lenN; lia). cbn. f_equal.
    rewrite !lenN_app, be_enc_lenN. lia.
  - rewrite range_field by done. rewrite be_dec_back by done. rewrite app_assoc.
    rewrite range_there; [|by rewrite lenN_app, be_enc_lenN|rewrite lenN_app, be_enc_lenN; lia].
    rewrite (app_assoc _ k).
    rewrite range_there; [|by rewrite !lenN_app, be_enc_lenN|rewrite !lenN_app, !be_enc_lenN; lia].
    rewrite be_dec_back by done. rewrite (app_assoc _ (be_enc 4 j)).
    rewrite range_short by (rewrite ?lenN_app, ?be_enc_lenN; lia).
    rewrite remaining_is by (rewrite ?lenN_app, ?be_enc_lenN; lia). cbn. f_equal.
    rewrite !lenN_app, !be_enc_lenN. lia.
Qed.

Lemma map_step_entry (dbg : bool) pre k v u acc n : (6 < lenN pre)%N -> (lenN k < 256)%N -> (lenN v < u32_mod)%N ->
  resp_feed dbg (RespCtx (lenN pre) (SMap acc n)) (pre ++ be_enc 1 (lenN k) ++ k ++ be_enc 4 (lenN v) ++ v ++ u) =
  if (N.of_nat (size (<[k := v]> acc)) <? n)%N
  then resp_feed dbg (RespCtx (lenN (pre ++ be_enc 1 (lenN k) ++ k ++ be_enc 4 (lenN v) ++ v)) (SMap (<[k := v]> acc) n))
         ((pre ++ be_enc 1 (lenN k) ++ k ++ be_enc 4 (lenN v) ++ v) ++ u)
  else (resp_ctx_new, PConcluded (RValue (VMap (<[k := v]> acc)))).
Proof.
  intros Hp Hk Hv. rewrite resp_feed_eq at 1. unfold resp_step. cbn [s_stage]. unfold resp_stage_map. cbn [s_idx].
  rewrite !assert_then_true by (rewrite ?lenN_app; lia). cbn zeta.
  rewrite range_field by done. rewrite be_dec_back by done. rewrite app_assoc.
  rewrite range_there; [|by rewrite lenN_app, be_enc_lenN|rewrite lenN_app, be_enc_lenN; lia].
  rewrite (app_assoc _ k).
  rewrite range_there; [|by rewrite !lenN_app, be_enc_lenN|rewrite !lenN_app, !be_enc_lenN; lia].
  rewrite be_dec_back by done. rewrite (app_assoc _ (be_enc 4 _)).
  rewrite range_there; [|by rewrite !lenN_app, !be_enc_lenN|rewrite !lenN_app, !be_enc_lenN; lia].
  destruct (_ <? _)%N; [|done].
  rewrite <-!app_assoc. do 2 f_equal. rewrite !lenN_app, !be_enc_lenN. lia.
Qed.

Lemma entries_more k v l t :
  entries ((k, v) :: l) ++ t = be_enc 1 (lenN k) ++ k ++ be_enc 4 (lenN v) ++ v ++ entries l ++ t.
Proof. unfold entries. cbn. by rewrite <-!app_assoc. Qed.

Lemma entries_lenN k v l :
  lenN (entries ((k, v) :: l)) = (1 + lenN k + 4 + lenN v + lenN (entries l))%N.
Proof. rewrite <-(app_nil_r (entries (_ :: _))), entries_more, !lenN_app, !be_enc_lenN, lenN_nil. lia. Qed.

Lemma map_asks (dbg : bool) n m rest : forall pre (acc : gmap bytes bytes), (6 < lenN pre)%N -> (N.of_nat (size acc) < n)%N ->
  (resp_feed dbg (RespCtx (lenN pre) (SMap acc n)) (pre ++ rest)).2 = PReadBytes m <->
  exists l t, rest = entries l ++ t /\ Forall (fun kv => lenN kv.1 < 256 /\ lenN kv.2 < u32_mod)%N l /\
    (N.of_nat (size (dom acc ∪ list_to_set l.*1)) < n)%N /\ short_entry (lenN pre + lenN (entries l)) t m.
Proof.
  induction rest as [rest IH] using (well_founded_induction (Wf_nat.well_founded_ltof _ (@length byte))).
  intros pre acc Hp Hacc.
  assert (Hun : forall (a : bytes) v (l : list (bytes * bytes)), dom acc ∪ list_to_set (((a, v) :: l).*1) = dom (<[a := v]> acc) ∪ list_to_set l.*1).
  { intros a v l. rewrite dom_insert_L. cbn. set_solver. }
  split.
  - intros H. destruct (entry_dec (lenN pre) rest) as [(m' & Hs)|(k & v & u & -> & Hk & Hv)].
    + pose proof (map_step_short dbg pre rest acc n m' Hp Hs) as E. rewrite E in H. injection H as ->.
      exists [], rest. split_and!; [done|constructor|cbn; by rewrite (right_id_L ∅ (∪)), size_dom|].
      cbn [entries map concat]. by rewrite lenN_nil, N.add_0_r.
    + rewrite map_step_entry in H by done. destruct (_ <? _)%N eqn:El; [|done].
      apply IH in H as (l & t & -> & Hl & Hn & Ht).
      * exists ((k, v) :: l), t. rewrite entries_more. split_and!; [done|by constructor|by rewrite Hun|].
        rewrite !lenN_app, !be_enc_lenN in Ht. rewrite entries_lenN.
        match goal with Ht : short_entry ?a _ _ |- short_entry ?b _ _ => replace b with a by lia end. done.
      * unfold Wf_nat.ltof. rewrite !app_length, !field_length. lia.
      * rewrite !lenN_app. lia.
      * lia.
  - intros (l & t & -> & Hl & Hn & Ht). destruct l as [|[k v] l].
    + cbn [entries map concat app] in *. rewrite lenN_nil, N.add_0_r in Ht. by apply map_step_short.
    + apply Forall_cons in Hl as [[Hk Hv] Hl]. cbn [fst snd] in Hk, Hv. rewrite entries_more, map_step_entry by done. rewrite Hun in Hn.
      assert (Hle : size (<[k := v]> acc) <= size (dom (<[k := v]> acc) ∪ list_to_set l.*1)).
      { rewrite <-size_dom. apply subseteq_size. set_solver. }
      replace (N.of_nat (size (<[k := v]> acc)) <? n)%N with true by lia.
      apply IH.
      * unfold Wf_nat.ltof. rewrite entries_more, !app_length, !field_length. lia.
      * rewrite !lenN_app. lia.
      * lia.
      * exists l, t. split_and!; try done.
        rewrite entries_lenN in Ht. rewrite !lenN_app, !be_enc_lenN.
        match goal with |- short_entry ?a _ _ => replace a with (lenN pre + (1 + lenN k + 4 + lenN v + lenN (entries l)))%N by lia end. done.
Qed.

(** ** All kinds *)

Lemma type_init_asks dbg (pre : bytes) k w rest m :
  lenN pre = 5%N -> (lenN rest < w)%N -> w = 2%N \/ w = 4%N ->
  (resp_feed dbg (RespCtx 5 (STypeInit k w)) (pre ++ rest)).2 = PReadBytes m <-> short_field dbg w rest m.
Proof.
  intros Hp Hn Hw. rewrite resp_feed_eq. unfold resp_step. cbn [s_stage].
  unfold resp_stage_type_init. cbn [s_idx]. rewrite assert_then_true by done.
  rewrite get_range_too_far by (rewrite lenN_app; lia). unfold short_field, usize_sub, usub.
  rewrite lenN_app, Hp. destruct (_ <=? _)%N eqn:E.
  - assert (w = 4%N /\ lenN rest = 0%N) as [-> Hr] by lia. destruct rest as [|b rest]; [|rewrite lenN_cons in Hr; lia].
    cbn. split; [intros [= <-]; split; [done|]; split; [by right|done]|]. intros (_ & _ & ->). done.
  - destruct dbg; cbn.
    + split; [done|]. intros (_ & [?|[-> ->]] & _); [done|]. rewrite lenN_nil in E. lia.
    + unfold u64_mod. replace (w + 1 + 18446744073709551616 - (5 + lenN rest))%N with (18446744073709551616 + w - (4 + lenN rest))%N by lia.
      split; [intros [= <-]; split; [done|]; split; [by left|done]|]. by intros (_ & _ & ->).
Qed.

Lemma no_short_field dbg (w : nat) n t m : ~ short_field dbg (N.of_nat w) (be_enc w n ++ t) m.
Proof. intros (H & _). rewrite lenN_app, be_enc_lenN in H. lia. Qed.

Lemma kind_asks dbg (pre : bytes) k rest m :
  lenN pre = 5%N ->
  ((resp_feed dbg (RespCtx 5 (start k)) (pre ++ rest)).2 = PReadBytes m <-> asks_within dbg k rest m).
Proof.
  intros Hp. destruct k; cbn [start asks_within].
  - (* boolean *)
    rewrite resp_feed_eq. unfold resp_step. cbn [s_stage]. unfold resp_stage_boolean. cbn [s_idx].
    rewrite assert_then_true by done. destruct rest as [|b s].
    + rewrite at_nil by done. cbn. split; [by intros [= <-]|by intros [_ ->]].
    + rewrite at_cons by done. cbn. split; [done|]. by intros [? _].
  - (* bytes *)
    destruct (field_dec 4 rest) as [Hs|(n & t & -> & Hn)].
    { rewrite type_init_asks by (done || by right). split; [by left|]. intros [?|(n & t & E & _)]; [done|]. by apply field_short in E. }
    rewrite (type_init_reads dbg pre RTBytes 4 4 n t eq_refl Hp Hn). change (5 + 4)%N with 9%N.
    rewrite app_assoc. rewrite resp_feed_eq. unfold resp_step. cbn [s_stage]. unfold resp_stage_bytes. cbn [s_idx].
    rewrite assert_then_true by done.
    transitivity ((lenN t < n)%N /\ m = (n - lenN t)%N).
    + destruct (decide (lenN t < n)%N) as [Hlt|Hge].
      * rewrite assert_then_true by lia. rewrite range_short by (rewrite ?lenN_app, ?be_enc_lenN; lia).
        rewrite remaining_is by (rewrite ?lenN_app, ?be_enc_lenN; lia). cbn. apply read_iff.
        rewrite !lenN_app, be_enc_lenN. split; [intros [_ ->]; lia|intros ->; split; lia].
      * split; [|intros [? _]; lia]. intros H. exfalso. destruct (assert_then _ _ _) as [[x' g]|] eqn:E; [|done].
        apply assert_then_ok in E. destruct (get_range _ 9 _) as [bs|] eqn:E1.
        -- injection E as <- <-. done.
        -- assert (Ht : t = take (N.to_nat n) t ++ drop (N.to_nat n) t) by (by rewrite take_drop).
           rewrite Ht, range_there in E1; [done|rewrite lenN_app, be_enc_lenN; lia|].
           rewrite lenN_app, be_enc_lenN, take_lenN; lia.
    + split; [intros [? ->]; right; by exists n, t|]. intros [Hs|(n' & t' & E & Hn' & Hlt & ->)]; [by apply (no_short_field _ 4) in Hs|].
      by apply field_inj in E as [-> ->].
  - (* float *)
    rewrite resp_feed_eq. unfold resp_step. cbn [s_stage]. unfold resp_stage_float. cbn [s_idx].
    rewrite assert_then_true by done.
    destruct (get_range _ 5 _) as [h|] eqn:E.
    + apply range_split in E as (t & -> & Hh); [|done]. cbn. split; [done|]. intros [Hlt _]. rewrite lenN_app in Hlt. lia.
    + cbn. destruct (decide (lenN rest < 8)%N) as [Hlt|Hge]; [split; [by intros [= <-]|by intros [_ ->]]|]. exfalso.
      assert (Ht : rest = take 8 rest ++ drop 8 rest) by (by rewrite take_drop).
      rewrite Ht, range_there in E; [done|done|]. unfold lenN in *. rewrite take_length. lia.
  - (* integer *)
    rewrite resp_feed_eq. unfold resp_step. cbn [s_stage]. unfold resp_stage_integer. cbn [s_idx].
    rewrite assert_then_true by done.
    destruct (get_range _ 5 _) as [h|] eqn:E.
    + apply range_split in E as (t & -> & Hh); [|done]. cbn. split; [done|]. intros [Hlt _]. rewrite lenN_app in Hlt. lia.
    + cbn. destruct (decide (lenN rest < 8)%N) as [Hlt|Hge]; [split; [by intros [= <-]|by intros [_ ->]]|]. exfalso.
      assert (Ht : rest = take 8 rest ++ drop 8 rest) by (by rewrite take_drop).
      rewrite Ht, range_there in E; [done|done|]. unfold lenN in *. rewrite take_length. lia.
  - (* list *)
    destruct (field_dec 2 rest) as [Hs|(n & t & -> & Hn)].
    { rewrite type_init_asks by (done || by left). split; [by left|]. intros [?|(c & l & t & E & _)]; [done|]. by apply field_short in E. }
    rewrite (type_init_reads dbg pre RTList 2 2 n t eq_refl Hp Hn). rewrite app_assoc.
    assert (Hpre : (5 + 2)%N = lenN (pre ++ be_enc 2 n)) by (rewrite lenN_app, be_enc_lenN; lia).
    rewrite Hpre, list_asks by (rewrite <-?Hpre, ?lenN_nil; lia). split.
    + intros (l & t' & -> & Hl & Hc & Ht). right. exists n, l, t'. rewrite lenN_nil in Hc. by split_and!.
    + intros [Hs|(c & l & t' & E & Hc & Hl & Hm & Ht)]; [by apply (no_short_field _ 2) in Hs|].
      apply field_inj in E as [<- ->]; [|done|done]. exists l, t'. rewrite lenN_nil. by split_and!.
  - (* map *)
    destruct (field_dec 2 rest) as [Hs|(n & t & -> & Hn)].
    { rewrite type_init_asks by (done || by left). split; [by left|]. intros [?|(c & l & t & E & _)]; [done|]. by apply field_short in E. }
    rewrite (type_init_reads dbg pre RTMap 2 2 n t eq_refl Hp Hn). rewrite app_assoc.
    assert (Hpre : (5 + 2)%N = lenN (pre ++ be_enc 2 n)) by (rewrite lenN_app, be_enc_lenN; lia).
    destruct (n =? 0)%N eqn:Ez.
    { cbn. split; [done|]. intros [Hs|(c & l & t' & E & Hc & Hl & Hm & Ht)]; [by apply (no_short_field _ 2) in Hs|].
      apply field_inj in E as [<- ->]; [|done|done]. lia. }
    rewrite Hpre, map_asks by (rewrite <-?Hpre, ?map_size_empty; lia). change 7%N with (5 + 2)%N. rewrite Hpre. split.
    + intros (l & t' & -> & Hl & Hc & Ht). right. exists n, l, t'. rewrite dom_empty_L, (left_id_L ∅ (∪)) in Hc. by split_and!.
    + intros [Hs|(c & l & t' & E & Hc & Hl & Hm & Ht)]; [by apply (no_short_field _ 2) in Hs|].
      apply field_inj in E as [<- ->]; [|done|done]. exists l, t'. rewrite dom_empty_L, (left_id_L ∅ (∪)). by split_and!.
  - (* set *)
    destruct (field_dec 2 rest) as [Hs|(n & t & -> & Hn)].
    { rewrite type_init_asks by (done || by left). split; [by left|]. intros [?|(c & l & t & E & _)]; [done|]. by apply field_short in E. }
    rewrite (type_init_reads dbg pre RTSet 2 2 n t eq_refl Hp Hn). rewrite app_assoc.
    assert (Hpre : (5 + 2)%N = lenN (pre ++ be_enc 2 n)) by (rewrite lenN_app, be_enc_lenN; lia).
    rewrite Hpre, set_asks by (rewrite <-?Hpre, ?size_empty; lia). change 7%N with (5 + 2)%N. rewrite Hpre. split.
    + intros (l & t' & -> & Hl & Hc & Ht). right. exists n, l, t'. rewrite (left_id_L ∅ (∪)) in Hc. by split_and!.
    + intros [Hs|(c & l & t' & E & Hc & Hl & Hm & Ht)]; [by apply (no_short_field _ 2) in Hs|].
      apply field_inj in E as [<- ->]; [|done|done]. exists l, t'. rewrite (left_id_L ∅ (∪)). by split_and!.
  - (* string *)
    destruct (field_dec 4 rest) as [Hs|(n & t & -> & Hn)].
    { rewrite type_init_asks by (done || by right). split; [by left|]. intros [?|(n & t & E & _)]; [done|]. by apply field_short in E. }
    rewrite (type_init_reads dbg pre RTString 4 4 n t eq_refl Hp Hn). change (5 + 4)%N with 9%N.
    transitivity ((lenN t < n)%N /\ m = (n - lenN t)%N).
    2:{ split; [intros [? ->]; right; by exists n, t|]. intros [Hs|(n' & t' & E & Hn' & Hlt & ->)]; [by apply (no_short_field _ 4) in Hs|].
      by apply field_inj in E as [-> ->]. }
    destruct (n =? 0)%N eqn:Ez; [cbn; split; [done|]; intros [? _]; lia|].
    rewrite app_assoc. rewrite resp_feed_eq. unfold resp_step. cbn [s_stage]. unfold resp_stage_string. cbn [s_idx].
    rewrite !assert_then_true by lia. destruct (decide (lenN t < n)%N) as [Hlt|Hge].
    + rewrite range_short by (rewrite ?lenN_app, ?be_enc_lenN; lia).
      unfold usize_sub. rewrite usub_ok by (rewrite !lenN_app, be_enc_lenN; lia). cbn. apply read_iff.
      rewrite !lenN_app, be_enc_lenN. split; [intros [_ ->]; lia|intros ->; split; lia].
    + split; [|intros [? _]; lia]. intros H. exfalso.
      assert (Ht : t = take (N.to_nat n) t ++ drop (N.to_nat n) t) by (by rewrite take_drop).
      rewrite Ht, range_there in H; [by destruct (from_utf8 _)|rewrite lenN_app, be_enc_lenN; lia|].
      rewrite lenN_app, be_enc_lenN, take_lenN; lia.
  - (* parse error *)
    rewrite resp_feed_eq. unfold resp_step. cbn [s_stage]. unfold resp_stage_parse_error. cbn [s_idx].
    rewrite assert_then_true by done. destruct rest as [|b s].
    + rewrite at_nil by done. cbn. split; [by intros [= <-]|by intros [_ ->]].
    + rewrite at_cons by done. split; [by destruct (parse_error_of_u8 (b2n b))|]. by intros [? _].
  - (* dispatch error *)
    rewrite resp_feed_eq. unfold resp_step. cbn [s_stage]. unfold resp_stage_dispatch_error. cbn [s_idx].
    rewrite assert_then_true by done. destruct rest as [|b s].
    + rewrite at_nil by done. cbn. split; [by intros [= <-]|by intros [_ ->]].
    + rewrite at_cons by done. split; [by destruct (dispatch_error_of_u8 (b2n b))|]. by intros [? _].
Qed.

(** ** The property *)

(** What is asked for when a whole message, by its header, is there. *)
Lemma c122_within dbg buf kind rest k n :
  message_in buf kind rest -> b2n kind = kind_number k ->
  (resp_feed dbg resp_ctx_new buf).2 = PReadBytes n <-> asks_within dbg k rest n.
Proof.
  intros Hm Hk. destruct (message_feed dbg _ _ _ Hm) as (pre & Hb & Hp & ->).
  apply of_number in Hk. rewrite Hk, Hb. by apply kind_asks.
Qed.

(** ... and when it is not. *)
Lemma c122_before dbg buf n :
  (forall kind rest, ~ message_in buf kind rest) ->
  (resp_feed dbg resp_ctx_new buf).2 = PReadBytes n <-> asks_before buf n.
Proof.
  intros Hno. rewrite resp_feed_eq. unfold resp_step. cbn [s_stage resp_ctx_new]. unfold resp_stage_init. cbn [s_idx].
  rewrite assert_then_true by done. destruct (decide (lenN buf < 4)%N) as [Hs|Hs].
  { rewrite get_range_too_far by lia. cbn. apply read_iff. unfold asks_before. split.
    - intros [[_ ->]|(h & t & -> & Hh & _)]; [done|]. rewrite lenN_app in Hs. lia.
    - intros ->. by left. }
  assert (exists h t, buf = h ++ t /\ lenN h = 4%N) as (h & t & -> & Hh).
  { exists (take 4 buf), (drop 4 buf). split; [by rewrite take_drop|]. unfold lenN in *. rewrite take_length. lia. }
  replace (get_range (h ++ t) 0 4) with (Some h).
  2:{ symmetry. pose proof (get_range_app_mid [] h t 0 4) as H. cbn [app] in H. apply H; [done|]. rewrite lenN_nil. lia. }
  cbv zeta. assert (Hb : asks_before (h ++ t) n <-> (lenN t < N.max 1 (be_dec h))%N /\ n = (N.max 1 (be_dec h) - lenN t)%N).
  { split.
    - intros [[? _]|(h' & t' & E & Hh' & Ht & ->)]; [done|]. apply app_inj_1 in E as [-> ->]; [done|]. unfold lenN in *. lia.
    - intros [? ->]. right. by exists h, t. }
  rewrite Hb. destruct (_ <? _)%N eqn:E.
  - unfold usize_sub. rewrite usub_ok by lia. cbn. apply read_iff. rewrite lenN_app in *. split; [intros [_ ->]; lia|intros ->; split; lia].
  - destruct t as [|kind rest].
    2:{ exfalso. eapply Hno. exists h. split; [done|]. split; [done|]. rewrite lenN_app, lenN_cons in E. lia. }
    rewrite resp_feed_eq. unfold resp_step. cbn [s_stage]. unfold resp_stage_determine. cbn [s_idx].
    rewrite assert_then_true by done. rewrite at_nil by (symmetry; exact Hh). cbn. apply read_iff.
    rewrite lenN_app, lenN_nil in *. split; [intros [_ ->]; lia|intros ->; split; lia].
Qed.

Lemma item_less (w : nat) t n s : short_item w t n -> (lenN s < n)%N -> short_item w (t ++ s) (n - lenN s).
Proof.
  intros [[Ht ->]|(m & u & -> & Hm & Hu & ->)] Hs.
  - left. rewrite lenN_app. split; lia.
  - right. exists m, (u ++ s). rewrite <-app_assoc, lenN_app. split_and!; try done; lia.
Qed.

Lemma message_more buf kind rest s : message_in buf kind rest -> message_in (buf ++ s) kind (rest ++ s).
Proof.
  intros (h & -> & Hh & Hl). exists h. rewrite <-app_assoc. split; [done|]. split; [done|]. rewrite lenN_app. lia.
Qed.

Lemma c122_fair dbg buf kind rest k n :
  message_in buf kind rest -> b2n kind = kind_number k -> counts_right k rest ->
  (resp_feed dbg resp_ctx_new buf).2 = PReadBytes n -> needs_all dbg buf n.
Proof.
  intros Hm Hk Hc Hn s Hs. pose proof Hn as Hn0. apply (c122_within dbg buf kind rest k n Hm Hk) in Hn.
  assert (Hone : n = 1%N -> exists m, (resp_feed dbg resp_ctx_new (buf ++ s)).2 = PReadBytes m).
  { intros ->. destruct s; [rewrite app_nil_r; eauto|]. rewrite lenN_cons in Hs. lia. }
  pose proof (message_more _ _ _ s Hm) as Hm'.
  assert (Hgo : forall m, asks_within dbg k (rest ++ s) m -> exists m, (resp_feed dbg resp_ctx_new (buf ++ s)).2 = PReadBytes m).
  { intros m H. exists m. by eapply c122_within. }
  destruct k; cbn [asks_within counts_right] in Hn, Hc, Hgo.
  - apply Hone. by destruct Hn.
  - destruct Hn as [(Hlt & _ & ->)|(m & t & -> & Hlt & Ht & ->)].
    + destruct Hc as [-> |?]; [|lia]. change ((u64_mod + 4 - (4 + lenN [])) mod u64_mod)%N with 0%N in Hs. lia.
    + apply (Hgo (m - lenN t - lenN s)%N). right. exists m, (t ++ s). rewrite <-app_assoc, lenN_app. split_and!; try done; lia.
  - apply Hone. by destruct Hn.
  - apply Hone. by destruct Hn.
  - destruct Hn as [(Hlt & _ & ->)|(c & l & t & -> & Hc' & Hl & Hcl & Ht)]; [lia|].
    apply (Hgo (n - lenN s)%N). right. exists c, l, (t ++ s). rewrite <-!app_assoc. split_and!; try done. by apply item_less.
  - destruct Hc as (c & l & -> & Hc & Hl & Hcl). apply Hone.
    assert (H1 : (resp_feed dbg resp_ctx_new buf).2 = PReadBytes 1).
    { eapply (c122_within dbg buf kind _ RTMap); [done|done|]. right. exists c, l, [].
      rewrite app_nil_r. split_and!; try done. by left. }
    rewrite Hn0 in H1. by injection H1.
  - destruct Hc as (c & l & t & -> & Hc & Hl & Hcl & Ht).
    assert (H1 : (resp_feed dbg resp_ctx_new buf).2 = PReadBytes (2 - lenN t)).
    { eapply (c122_within dbg buf kind _ RTSet); [done|done|]. right. exists c, l, t. split_and!; try done. by left. }
    rewrite Hn0 in H1. injection H1 as ->.
    apply (Hgo (2 - lenN t - lenN s)%N). right. exists c, l, (t ++ s). rewrite <-!app_assoc. split_and!; try done.
    left. rewrite lenN_app. split; lia.
  - destruct Hn as [(Hlt & _ & ->)|(m & t & -> & Hlt & Ht & ->)].
    + destruct Hc as [-> |?]; [|lia]. change ((u64_mod + 4 - (4 + lenN [])) mod u64_mod)%N with 0%N in Hs. lia.
    + apply (Hgo (m - lenN t - lenN s)%N). right. exists m, (t ++ s). rewrite <-app_assoc, lenN_app. split_and!; try done; lia.
  - apply Hone. by destruct Hn.
  - apply Hone. by destruct Hn.
Qed.

Lemma c122_fair_before dbg buf n :
  (forall kind rest, ~ message_in buf kind rest) ->
  (resp_feed dbg resp_ctx_new buf).2 = PReadBytes n -> needs_all dbg buf n.
Proof.
  intros Hno Hn s Hs. apply c122_before in Hn; [|done].
  exists (n - lenN s)%N. apply c122_before.
  - intros kind rest (h & E & Hh & Hl). destruct Hn as [[Ht ->]|(h' & t & -> & Hh' & Ht & ->)].
    + apply (f_equal lenN) in E. rewrite !lenN_app, lenN_cons in E. lia.
    + rewrite <-app_assoc in E. apply app_inj_1 in E as [-> E]; [|unfold lenN in *; lia].
      apply (f_equal lenN) in E. rewrite lenN_app, lenN_cons in E. lia.
  - destruct Hn as [[Ht ->]|(h & t & -> & Hh & Ht & ->)].
    + left. rewrite lenN_app. split; lia.
    + right. exists h, (t ++ s). rewrite <-app_assoc, lenN_app. split_and!; try done; lia.
Qed.


Lemma not_all dbg buf n s r :
  (resp_feed dbg resp_ctx_new (buf ++ s)).2 = PConcluded r -> (lenN s < n)%N -> ~ needs_all dbg buf n.
Proof. intros Hr Hs H. destruct (H s Hs) as [m E]. congruence. Qed.

(** (!) A set whose last member lacks its last byte: more than that byte is asked for. *)
Lemma c122_too_much_set dbg buf kind c l (x : bytes) b :
  message_in buf kind (be_enc 2 c ++ members l ++ be_enc 2 (lenN (x ++ [b])) ++ x) -> b2n kind = 6%N ->
  (c < u16_mod)%N -> Forall (fun x => lenN x < u16_mod)%N (l ++ [x ++ [b]]) ->
  (x ++ [b]) ∉ l -> (distinct l + 1 = N.max 1 c)%N ->
  (resp_feed dbg resp_ctx_new buf).2 = PReadBytes (10 + lenN (members l)) /\
  (resp_feed dbg resp_ctx_new (buf ++ [b])).2 = PConcluded (RValue (VSet (list_to_set (l ++ [x ++ [b]])))) /\
  ~ needs_all dbg buf (10 + lenN (members l)).
Proof.
  intros Hm Hk Hc Hl Hx Hd. apply Forall_app in Hl as Hl'. destruct Hl' as [Hl1 Hl2].
  apply Forall_cons in Hl2 as [Hx1 _].
  cut ((resp_feed dbg resp_ctx_new buf).2 = PReadBytes (10 + lenN (members l)) /\
    (resp_feed dbg resp_ctx_new (buf ++ [b])).2 = PConcluded (RValue (VSet (list_to_set (l ++ [x ++ [b]]))))).
  { intros [? E]. split_and!; [done|done|]. eapply not_all; [exact E|]. rewrite lenN_one. lia. }
  split.
  - apply (c122_within dbg buf kind _ RTSet _ Hm Hk). right.
    exists c, l, (be_enc 2 (lenN (x ++ [b])) ++ x). split; [done|]. split; [done|]. split; [done|]. split; [lia|].
    right. exists (lenN (x ++ [b])), x. split; [done|]. split; [done|]. rewrite lenN_app, lenN_one. split; lia.
  - apply c99_accepts. exists RTSet, kind, (be_enc 2 c ++ members (l ++ [x ++ [b]])). split_and!; [|done|].
    + apply (message_more _ _ _ [b]) in Hm. unfold members in *. rewrite map_app, concat_app. cbn [map concat].
      rewrite app_nil_r. by rewrite <-!app_assoc in *.
    + exists c, (l ++ [x ++ [b]]), []. rewrite app_nil_r. split_and!; try done. split; [|by exists l, (x ++ [b])].
      rewrite <-Hd. unfold distinct. rewrite list_to_set_app_L. cbn [list_to_set]. rewrite (right_id_L ∅ (∪)).
      rewrite size_union by set_solver. rewrite size_singleton. lia.
Qed.

(** (!) A map whose last value lacks its last byte. *)
Lemma c122_too_much_map dbg buf kind c l (key x : bytes) b :
  message_in buf kind (be_enc 2 c ++ entries l ++ be_enc 1 (lenN key) ++ key ++ be_enc 4 (lenN (x ++ [b])) ++ x) ->
  b2n kind = 5%N -> (c < u16_mod)%N ->
  Forall (fun kv => lenN kv.1 < 256 /\ lenN kv.2 < u32_mod)%N (l ++ [(key, x ++ [b])]) ->
  key ∉ l.*1 -> (distinct l.*1 + 1 = c)%N ->
  (resp_feed dbg resp_ctx_new buf).2 = PReadBytes (13 + lenN (entries l) + lenN key) /\
  (exists v, (resp_feed dbg resp_ctx_new (buf ++ [b])).2 = PConcluded (RValue v)) /\
  ~ needs_all dbg buf (13 + lenN (entries l) + lenN key).
Proof.
  intros Hm Hk Hc Hl Hx Hd. apply Forall_app in Hl as Hl'. destruct Hl' as [Hl1 Hl2].
  apply Forall_cons in Hl2 as [[Hx1 Hx2] _]. cbn [fst snd] in Hx1, Hx2.
  cut ((resp_feed dbg resp_ctx_new buf).2 = PReadBytes (13 + lenN (entries l) + lenN key) /\
    exists v, (resp_feed dbg resp_ctx_new (buf ++ [b])).2 = PConcluded (RValue v)).
  { intros [? [v E]]. split_and!; [done|eauto|]. eapply not_all; [exact E|]. rewrite lenN_one. lia. }
  split.
  - apply (c122_within dbg buf kind _ RTMap _ Hm Hk). right.
    exists c, l, (be_enc 1 (lenN key) ++ key ++ be_enc 4 (lenN (x ++ [b])) ++ x).
    split; [done|]. split; [done|]. split; [done|]. split; [lia|].
    right. right. right. exists key, (lenN (x ++ [b])), x. split; [done|]. split; [done|]. split; [done|].
    rewrite lenN_app, lenN_one. split; lia.
  - eexists. apply c99_accepts. exists RTMap, kind, (be_enc 2 c ++ entries (l ++ [(key, x ++ [b])])). split_and!; [|done|].
    + apply (message_more _ _ _ [b]) in Hm. unfold entries in *. rewrite map_app, concat_app. cbn [map concat fst snd].
      rewrite app_nil_r. by rewrite <-!app_assoc in *.
    + exists c, (l ++ [(key, x ++ [b])]), []. rewrite app_nil_r. split_and!; try done. right. rewrite fmap_app. cbn [fmap list_fmap fst].
      split; [|by exists (l.*1), key].
      rewrite <-Hd. unfold distinct. rewrite list_to_set_app_L. cbn [list_to_set]. rewrite (right_id_L ∅ (∪)).
      rewrite size_union by set_solver. rewrite size_singleton. lia.
Qed.

(** (!) A message that ends within the length of bytes: in a release build nearly 2^64 bytes are asked for. *)
Lemma c122_too_much_length buf kind (bs p q : bytes) :
  message_in buf kind p -> b2n kind = 1%N -> (lenN bs < u32_mod)%N ->
  be_enc 4 (lenN bs) = p ++ q -> p <> [] -> q <> [] ->
  (resp_feed false resp_ctx_new buf).2 = PReadBytes (u64_mod - lenN p) /\
  (resp_feed false resp_ctx_new (buf ++ q ++ bs)).2 = PConcluded (RValue (VBytes bs)) /\
  ~ needs_all false buf (u64_mod - lenN p).
Proof.
  intros Hm Hk Hbs E Hp Hq. pose proof (be_enc_lenN 4 (lenN bs)) as El. rewrite E, lenN_app in El.
  cut ((resp_feed false resp_ctx_new buf).2 = PReadBytes (u64_mod - lenN p) /\
    (resp_feed false resp_ctx_new (buf ++ q ++ bs)).2 = PConcluded (RValue (VBytes bs))).
  { intros [? E']. split_and!; [done|done|]. eapply not_all; [exact E'|]. unfold u64_mod, u32_mod in *.
    rewrite lenN_app. lia. }
  split.
  - apply (c122_within false buf kind _ RTBytes _ Hm Hk). left.
    destruct p as [|a p]; [done|]. destruct q as [|d q]; [done|]. unfold short_field. rewrite !lenN_cons in *.
    split; [lia|]. split; [by left|]. unfold u64_mod. rewrite N.mod_small; lia.
  - apply c99_accepts. exists RTBytes, kind, (p ++ q ++ bs). split; [by apply message_more|]. split; [done|].
    exists bs, []. rewrite app_nil_r, E, <-app_assoc. by split_and!.
Qed.

(** (!) A message that ends before the length of bytes or of a string: nothing is asked for. *)
Lemma c122_nothing dbg buf kind :
  message_in buf kind [] -> b2n kind = 1%N \/ b2n kind = 7%N -> (resp_feed dbg resp_ctx_new buf).2 = PReadBytes 0.
Proof.
  intros Hm [Hk|Hk].
  - apply (c122_within dbg buf kind _ RTBytes _ Hm Hk). left. split; [done|]. split; [by right|done].
  - apply (c122_within dbg buf kind _ RTString _ Hm Hk). left. split; [done|]. split; [by right|done].
Qed.

(** In all other cases at least one byte is asked for. *)
Lemma c122_something dbg buf :
  (resp_feed dbg resp_ctx_new buf).2 = PReadBytes 0 ->
  exists kind, message_in buf kind [] /\ (b2n kind = 1%N \/ b2n kind = 7%N).
Proof.
  intros H. destruct (message_dec buf) as [(kind & rest & Hm)|Hno].
  2:{ apply c122_before in H; [|done]. destruct H as [[? ?]|(h & t & -> & ? & ? & ?)]; lia. }
  destruct (response_type_of_u8 (b2n kind)) as [k|] eqn:Ek.
  2:{ destruct (message_feed dbg _ _ _ Hm) as (pre & _ & _ & E). rewrite E, Ek in H. done. }
  apply of_number in Ek. apply (c122_within dbg buf kind rest k 0 Hm Ek) in H.
  assert (Hf : forall w, (w = 2 \/ w = 4)%N -> short_field dbg w rest 0 -> w = 4%N /\ rest = []).
  { intros w Hw (Hlt & _ & E). unfold u64_mod in E.
    destruct (decide (w < 4 + lenN rest)%N) as [Hb|Hb].
    - rewrite N.mod_small in E by lia. lia.
    - destruct rest as [|a rest]; [split; [rewrite lenN_nil in Hb; lia|done]|]. rewrite lenN_cons in Hb. lia. }
  destruct k; cbn [asks_within] in H.
  - by destruct H.
  - destruct H as [H|(m & t & _ & _ & ? & ?)]; [|lia]. destruct (Hf 4%N) as [_ ->]; [by right|done|]. exists kind. split; [done|by left].
  - by destruct H.
  - by destruct H.
  - destruct H as [H|(c & l & t & _ & _ & _ & _ & [[? ?]|(m & u & _ & _ & ? & ?)])]; [|lia|lia]. by destruct (Hf 2%N) as [? _]; [left|..].
  - destruct H as [H|(c & l & t & _ & _ & _ & _ & [[_ ?]|[(m & u & _ & _ & ? & ?)|[(m & u & _ & _ & ? & ?)|(m & u & ? & _ & _ & _ & ? & ?)]]])]; [|done|lia|lia|lia].
    by destruct (Hf 2%N) as [? _]; [left|..].
  - destruct H as [H|(c & l & t & _ & _ & _ & _ & [[? ?]|(m & u & _ & _ & ? & ?)])]; [|lia|lia]. by destruct (Hf 2%N) as [? _]; [left|..].
  - destruct H as [H|(m & t & _ & _ & ? & ?)]; [|lia]. destruct (Hf 4%N) as [_ ->]; [by right|done|]. exists kind. split; [done|by right].
  - by destruct H.
  - by destruct H.
Qed.
