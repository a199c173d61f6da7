(** Lemmas about writing responses (C11, C15). *)
From Verif Require Import Bytes BytesFacts Value CommandId Response WireSpec IdsFacts.
From stdpp Require Import gmap list.
From Coq Require Import NArith ZArith Lia.
From Coq Require Import ZifyBool ZifyNat ZifyN.

Notation enc_items l := (concat (map (fun x : bytes => be_enc 4 (lenN x) ++ x) l)).
Notation enc_pairs l :=
  (concat (map (fun kv : bytes * bytes => be_enc 1 (lenN kv.1) ++ kv.1
                         ++ be_enc 4 (lenN kv.2) ++ kv.2) l)).
Notation enc_set l := (concat (map (fun x : bytes => be_enc 2 (lenN x) ++ x) l)).

Lemma lenN_concat_perm {A} (f : A -> bytes) l1 l2 :
  l1 ≡ₚ l2 -> lenN (concat (map f l1)) = lenN (concat (map f l2)).
Proof.
  induction 1; cbn; rewrite ?lenN_app; try lia.
Qed.

Lemma be_enc_1 n : be_enc 1 n = [n2b n].
Proof. done. Qed.

Lemma n2b_mod n : n2b (n mod 256) = n2b n.
Proof. apply b2n_inj. rewrite !b2n_n2b. apply N.mod_mod. done. Qed.

(** ** Lists *)

Lemma write_list_loop_ok dbg to n c l :
  (n + lenN (enc_items l) < u32_mod)%N -> (c + lenN l < u16_mod)%N ->
  write_list_loop dbg to n c l
  = Ok (to ++ enc_items l, n + lenN (enc_items l), c + lenN l)%N.
Proof.
  revert to n c. induction l as [|x l IH]; intros to n c Hn Hc; cbn in *.
  - rewrite lenN_nil, app_nil_r, !N.add_0_r. done.
  - rewrite lenN_cons in *. rewrite !lenN_app, be_enc_lenN in Hn.
    change (N.of_nat 4) with 4%N in Hn.
    rewrite uadd_ok by lia. cbn [obind]. rewrite as_u32_small by lia.
    unfold u32_add. rewrite uadd_ok by lia. cbn [obind].
    rewrite uadd_ok by lia. cbn [obind]. rewrite IH by lia.
    rewrite !lenN_app, be_enc_lenN. change (N.of_nat 4) with 4%N.
    rewrite <-!app_assoc. f_equal. f_equal; [f_equal; lia|lia].
Qed.

Lemma patch_app (p m s src : bytes) i :
  i = lenN p -> length m = length src -> patch (p ++ m ++ s) i src = p ++ src ++ s.
Proof.
  intros -> Hlen. unfold patch. rewrite lenN_nat.
  rewrite take_app. f_equal. f_equal.
  rewrite drop_app_ge by lia. replace (_ + _ - _)%nat with (length src) by lia.
  rewrite <-Hlen. by rewrite drop_app.
Qed.

Lemma write_list_ok e to l :
  (lenN l < u16_mod)%N -> (1 + lenN (payload_list l) < u32_mod)%N ->
  write_list e to l = Ok (to ++ frame RTList (payload_list l)).
Proof.
  intros Hl Hp. unfold write_list, payload_list in *.
  rewrite lenN_app, be_enc_lenN in Hp. change (N.of_nat 2) with 2%N in Hp.
  rewrite write_list_loop_ok by lia. cbn [obind].
  rewrite <-!app_assoc.
  rewrite patch_app; [|done|by rewrite be_enc_len].
  set (h := be_enc 4 _).
  rewrite (app_assoc to h), (app_assoc (to ++ h) [rt_byte RTList]).
  rewrite patch_app.
  - unfold frame, h. rewrite lenN_app, be_enc_lenN. change (N.of_nat 2) with 2%N.
    rewrite <-!app_assoc. do 2 f_equal. f_equal. f_equal. lia.
  - rewrite !lenN_app. unfold h. rewrite be_enc_lenN, lenN_one. lia.
  - by rewrite be_enc_len.
Qed.

(** ** Maps *)

Lemma map_len_loop_ok dbg acc l :
  (acc + lenN (enc_pairs l) < u32_mod)%N ->
  map_len_loop dbg acc l = Ok (acc + lenN (enc_pairs l))%N.
Proof.
  revert acc. induction l as [|[k v] l IH]; intros acc H; cbn in *.
  - by rewrite lenN_nil, N.add_0_r.
  - rewrite !lenN_app, !be_enc_lenN in *.
    change (N.of_nat 4) with 4%N in *. change (N.of_nat 1) with 1%N in *.
    rewrite !as_u32_small by lia. unfold u32_add.
    rewrite uadd_ok by lia. cbn [obind]. rewrite uadd_ok by lia. cbn [obind].
    rewrite uadd_ok by lia. cbn [obind]. rewrite uadd_ok by lia. cbn [obind].
    rewrite IH by lia. f_equal. lia.
Qed.

Lemma enc_pairs_lt l k v : (k, v) ∈ l -> (lenN v <= lenN (enc_pairs l))%N.
Proof.
  induction l as [|[k' v'] l IH]; [intros []%elem_of_nil|].
  rewrite elem_of_cons. intros [[= <- <-]|H]; cbn; rewrite !lenN_app; [lia|].
  apply IH in H. lia.
Qed.

Lemma map_entries_ok l :
  (forall k v, (k, v) ∈ l -> lenN v < u32_mod)%N ->
  concat (map map_entry l) = enc_pairs l.
Proof.
  intros H. f_equal. apply map_ext_in. intros [k v] Hin%elem_of_list_In.
  unfold map_entry. cbn. rewrite as_u32_small by eauto. by rewrite be_enc_1.
Qed.

Lemma write_map_ok e to m :
  env_ok e -> (N.of_nat (size m) < u16_mod)%N ->
  (1 + lenN (payload_map (map_to_list m)) < u32_mod)%N ->
  write_map e to m = Ok (to ++ frame RTMap (payload_map (map_iter e m))).
Proof.
  intros He Hs Hp. unfold write_map, payload_map in *.
  rewrite lenN_app, be_enc_lenN in Hp. change (N.of_nat 2) with 2%N in Hp.
  rewrite <-(lenN_concat_perm _ _ _ (proj1 He m)) in Hp.
  rewrite map_len_loop_ok by lia. cbn [obind].
  rewrite as_u16_small by done. rewrite map_entries_ok.
  2:{ intros k v H%enc_pairs_lt. lia. }
  unfold frame. rewrite lenN_app, be_enc_lenN. change (N.of_nat 2) with 2%N.
  assert (lenN (map_iter e m) = N.of_nat (size m)) as ->.
  { unfold lenN. by rewrite map_iter_size. }
  do 3 f_equal. f_equal. lia.
Qed.

(** ** Sets *)

Lemma set_len_loop_ok dbg acc l :
  (acc + lenN (enc_set l) < u32_mod)%N ->
  set_len_loop dbg acc l = Ok (acc + lenN (enc_set l))%N.
Proof.
  revert acc. induction l as [|x l IH]; intros acc H; cbn in *.
  - by rewrite lenN_nil, N.add_0_r.
  - rewrite !lenN_app, !be_enc_lenN in *. change (N.of_nat 2) with 2%N in *.
    rewrite !as_u32_small by lia. unfold u32_add.
    rewrite uadd_ok by lia. cbn [obind]. rewrite uadd_ok by lia. cbn [obind].
    rewrite IH by lia. f_equal. lia.
Qed.

Lemma set_entries_ok l :
  (forall x, x ∈ l -> lenN x < u16_mod)%N ->
  concat (map set_entry l) = enc_set l.
Proof.
  intros H. f_equal. apply map_ext_in. intros x Hin%elem_of_list_In.
  unfold set_entry. by rewrite as_u16_small by eauto.
Qed.

Lemma write_set_ok e to s :
  env_ok e -> (N.of_nat (size s) < u16_mod)%N ->
  (forall x, x ∈ s -> (lenN x < u16_mod)%N) ->
  (1 + lenN (payload_set (elements s)) < u32_mod)%N ->
  write_set e to s = Ok (to ++ frame RTSet (payload_set (set_iter e s))).
Proof.
  intros He Hs Hx Hp. unfold write_set, payload_set in *.
  rewrite lenN_app, be_enc_lenN in Hp. change (N.of_nat 2) with 2%N in Hp.
  rewrite <-(lenN_concat_perm _ _ _ (proj2 He s)) in Hp.
  rewrite set_len_loop_ok by lia. cbn [obind].
  rewrite as_u16_small by done. rewrite set_entries_ok.
  2:{ intros x H. rewrite set_iter_elem in H by done. auto. }
  unfold frame. rewrite lenN_app, be_enc_lenN. change (N.of_nat 2) with 2%N.
  assert (lenN (set_iter e s) = N.of_nat (size s)) as ->.
  { unfold lenN. by rewrite set_iter_size. }
  do 3 f_equal. f_equal. lia.
Qed.

(** ** Every response *)

Lemma copy_to_ok e r to :
  env_ok e -> within_limits r -> copy_to e r to = Ok (to ++ resp_frame e r).
Proof.
  intros He Hl. destruct r as [err|err|v]; [done|done|].
  destruct v as [x|bs|n|z|l|m|s|str]; cbn in Hl |- *.
  - done.
  - unfold write_bytes, u32_add. rewrite as_u32_small by lia.
    rewrite uadd_ok by done. cbn [obind]. unfold resp_frame, frame. cbn.
    unfold payload_bytes. rewrite lenN_app, be_enc_lenN.
    change (N.of_nat 4) with 4%N. do 3 f_equal. f_equal. lia.
  - unfold write_float, resp_frame, frame. cbn. by rewrite be_enc_lenN.
  - unfold write_int, resp_frame, frame. cbn. unfold i64_enc. by rewrite be_enc_lenN.
  - destruct Hl. by rewrite write_list_ok.
  - destruct Hl as (H1 & H2 & H3). by rewrite write_map_ok.
  - destruct Hl as (H1 & H2 & H3). by rewrite write_set_ok.
  - unfold write_str, u32_add. rewrite as_u32_small by lia.
    rewrite uadd_ok by done. cbn [obind]. unfold resp_frame, frame. cbn.
    unfold payload_bytes. rewrite lenN_app, be_enc_lenN.
    change (N.of_nat 4) with 4%N. do 3 f_equal. f_equal. lia.
Qed.

Lemma resp_payload_limit e r :
  env_ok e -> within_limits r -> (1 + lenN (resp_payload e r) < u32_mod)%N.
Proof.
  intros He Hl. destruct r as [err|err|v]; [done|done|].
  destruct v as [x|bs|n|z|l|m|s|str]; cbn in Hl |- *.
  - done.
  - unfold payload_bytes. rewrite lenN_app, be_enc_lenN. lia.
  - by rewrite be_enc_lenN.
  - unfold i64_enc. by rewrite be_enc_lenN.
  - apply Hl.
  - destruct Hl as (H1 & H2 & H3). unfold payload_map in *.
    rewrite !lenN_app, !be_enc_lenN in *. by rewrite (lenN_concat_perm _ _ _ (proj1 He m)).
  - destruct Hl as (H1 & H2 & H3). unfold payload_set in *.
    rewrite !lenN_app, !be_enc_lenN in *. by rewrite (lenN_concat_perm _ _ _ (proj2 He s)).
  - unfold payload_bytes. rewrite lenN_app, be_enc_lenN. lia.
Qed.

Lemma c11_frame e r to :
  env_ok e -> within_limits r ->
  exists body, copy_to e r to = Ok (to ++ be_enc 4 (lenN body) ++ body) /\
               (lenN body < u32_mod)%N /\ body <> [].
Proof.
  intros He Hl. exists ([n2b (response_type_to_u8 (resp_kind r))] ++ resp_payload e r).
  rewrite copy_to_ok by done. rewrite lenN_app, lenN_one.
  split; [done|]. split; [by apply resp_payload_limit|done].
Qed.

Lemma write_all_ok e rs to :
  env_ok e -> Forall within_limits rs ->
  write_all e rs to = Ok (to ++ concat (map (resp_frame e) rs)).
Proof.
  intros He H. revert to. induction H as [|r rs Hr _ IH]; intros to; cbn.
  - by rewrite app_nil_r.
  - rewrite copy_to_ok by done. cbn. by rewrite IH, app_assoc.
Qed.

Lemma cut_frames_ok e rs :
  env_ok e -> Forall within_limits rs ->
  cut_frames (S (length rs)) (concat (map (resp_frame e) rs))
  = Some (map (resp_frame e) rs).
Proof.
  intros He H. induction H as [|r rs Hr _ IH]; [done|].
  cbn [length]. remember (S (length rs)) as f. cbn [cut_frames map concat].
  set (body := [n2b (response_type_to_u8 (resp_kind r))] ++ resp_payload e r).
  assert (Hf : resp_frame e r = be_enc 4 (lenN body) ++ body).
  { unfold resp_frame, frame, body. by rewrite lenN_app, lenN_one. }
  assert (Hb : (lenN body < u32_mod)%N).
  { unfold body. rewrite lenN_app, lenN_one. by apply resp_payload_limit. }
  set (rest := concat (map (resp_frame e) rs)) in *.
  destruct (resp_frame e r ++ rest) as [|x0 tl] eqn:E.
  { exfalso. apply (f_equal lenN) in E. rewrite Hf, !lenN_app, be_enc_lenN in E.
    rewrite lenN_nil in E. lia. }
  rewrite <-E. clear E x0 tl.
  assert (Ht : take 4 (resp_frame e r ++ rest) = be_enc 4 (lenN body)).
  { rewrite Hf, <-app_assoc. rewrite take_app_alt; [done|]. by rewrite be_enc_len. }
  rewrite Ht, be4 by done.
  assert (Hn : (4 + lenN body)%N = lenN (resp_frame e r)).
  { rewrite Hf, lenN_app, be_enc_lenN. done. }
  rewrite Hn. rewrite lenN_app.
  replace ((4 <=? _) && _)%N with true by lia.
  rewrite lenN_nat, drop_app, IH, take_app. done.
Qed.
