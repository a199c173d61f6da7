(** The lemmas behind C107. *)
From Verif Require Import Bytes BytesFacts Value CommandId Request ReqContext Response Metrics Prog
  Commands EngineSpec WireSpec RequestSpec ParserSpec HistorySpec EngineProps
  Server ServerSpec ServerFacts ServerProps CostSpec.
From stdpp Require Import gmap list.
From Coq Require Import NArith ZArith Lia.
From Coq Require Import ZifyBool ZifyNat ZifyN.

(** ** Sizes of answers *)

Definition entry_len (kv : bytes * bytes) : nat := 5 + length (kv.1) + length (kv.2).

Lemma payload_map_len l :
  lenN (payload_map l) = (2 + N.of_nat (sum_list_with entry_len l))%N.
Proof.
  unfold payload_map. rewrite lenN_app, be_enc_lenN. f_equal.
  induction l as [|[k v] l IH]; [done|]. cbn [map concat sum_list_with].
  rewrite !lenN_app, !be_enc_lenN, IH. unfold entry_len, lenN. cbn [fst snd]. lia.
Qed.

Lemma sum_with_submseteq {A} (f : A -> nat) (l k : list A) :
  l ⊆+ k -> sum_list_with f l <= sum_list_with f k.
Proof. induction 1; cbn [sum_list_with]; lia. Qed.

Definition three : list bytes := map metric_name [MCommandsErrored; MCommandsSuccessful; MSessionsStarted].

Lemma statistics_len (l : list (bytes * bytes)) m :
  statistics m -> l ≡ₚ map_to_list m -> sum_list_with entry_len l <= 90.
Proof.
  intros Hm Hl.
  assert (Hk : l.*1 ⊆+ three).
  { apply NoDup_submseteq.
    - rewrite Hl. apply NoDup_fst_map_to_list.
    - intros k Hk. rewrite Hl in Hk. apply elem_of_list_fmap in Hk as ([k' v] & -> & H).
      apply elem_of_map_to_list in H. by destruct (Hm _ _ H) as [? _]. }
  apply (sum_with_submseteq (fun k => 13 + length k)) in Hk.
  change (sum_list_with (fun k => 13 + length k) three) with 90 in Hk.
  etrans; [|exact Hk].
  assert (Hv : Forall (fun kv : bytes * bytes => length (kv.2) = 8) l).
  { apply Forall_forall. intros [k v] H. rewrite Hl in H. apply elem_of_map_to_list in H.
    destruct (Hm _ _ H) as [_ (n & _ & ->)]. cbn [snd]. pose proof (be_enc_lenN 8) as E.
    unfold i64_enc. unfold lenN in E.
    match goal with |- length (be_enc 8 ?x) = 8 => specialize (E x) end. lia. }
  clear -Hv. induction Hv as [|[k v] l H _ IH]; [done|]. cbn [fmap list_fmap sum_list_with fst snd] in *.
  unfold entry_len at 1. cbn [fst snd]. lia.
Qed.

Lemma answer_len e m r : env_ok e -> answers m r -> (lenN (resp_frame e r) <= largest_answer)%N.
Proof.
  intros He. unfold resp_frame, frame, largest_answer. rewrite !lenN_app, be_enc_lenN, lenN_one.
  unfold answers. destruct (req_feed req_ctx_new m) as [x [|req|err| |]]; cbn [snd]; try done.
  - intros H. destruct (r_command req); cbn in H; try (subst r; cbn [resp_payload]; rewrite lenN_one; lia).
    + subst r. cbn [resp_payload]. vm_compute. done.
    + destruct H as (st & -> & Hst). cbn [resp_payload]. rewrite payload_map_len.
      pose proof (statistics_len (map_iter e st) st Hst) as H.
      assert (Hp : map_iter e st ≡ₚ map_to_list st) by apply He.
      specialize (H Hp). lia.
  - intros ->. cbn [resp_payload]. rewrite lenN_one. lia.
Qed.

(** ** Messages and lines *)

Lemma messages_count p bs : (lenN (messages p bs).1 <= line_ends bs)%N.
Proof.
  revert p. induction bs as [|b bs IH]; intros p; [done|]. cbn [messages].
  unfold line_ends. cbn [List.filter].
  destruct (b2n b =? 10)%N; cbn [andb].
  - rewrite lenN_cons. destruct (conclusive (p ++ [b])).
    + specialize (IH []). destruct (messages [] bs) as [ms t]. cbn [fst] in *. rewrite lenN_cons.
      unfold line_ends in IH. lia.
    + specialize (IH (p ++ [b])). unfold line_ends in IH. lia.
  - apply IH.
Qed.

Lemma cut_count closed bs :
  (lenN (cut closed bs) <= line_ends bs + if closed then 1 else 0)%N.
Proof.
  unfold cut. pose proof (messages_count [] bs) as H. destruct (messages [] bs) as [ms t].
  cbn [fst] in H. rewrite lenN_app.
  destruct closed; cbn [andb]; [|rewrite lenN_nil; lia].
  destruct (negb (ends_line t) && conclusive t); rewrite ?lenN_one, ?lenN_nil; lia.
Qed.

Lemma messages_whole p bs : concat (messages p bs).1 ++ (messages p bs).2 = p ++ bs.
Proof.
  revert p. induction bs as [|b bs IH]; intros p; cbn [messages]; [by rewrite app_nil_r|].
  destruct ((b2n b =? 10)%N && conclusive (p ++ [b])).
  - specialize (IH []). destruct (messages [] bs) as [ms t]. cbn [fst snd concat] in *.
    by rewrite <-app_assoc, IH, <-app_assoc.
  - by rewrite IH, <-app_assoc.
Qed.

(** ** What is sent *)

Lemma c107_sent e s0 evs cs s i c :
  env_ok e -> room_during evs s0 -> serves e s0 evs cs s -> cs !! i = Some c ->
  (lenN (k_sent c) <= largest_answer * lines_sent i evs)%N.
Proof.
  intros He Hroom Hrun Hc.
  destruct (c39_order _ _ _ _ _ _ _ He Hroom Hrun Hc) as (ds & rest & rs & Hcut & Hrs & -> & _).
  pose proof (cut_count (ended i evs) (received i evs)) as Hn. rewrite Hcut, lenN_app in Hn.
  fold (lines_sent i evs) in Hn.
  assert (Hf : (lenN (all_frames e rs) <= largest_answer * lenN ds)%N).
  { clear -Hrs He. induction Hrs as [|m r ms rs Hr _ IH]; [done|].
    unfold all_frames. cbn [map concat]. rewrite lenN_app, lenN_cons.
    pose proof (answer_len e m r He Hr) as H. unfold all_frames in IH. lia. }
  etrans; [exact Hf|]. apply N.mul_le_mono_l. lia.
Qed.

(** ** What is kept *)

Lemma c107_kept e s0 evs cs s i c :
  env_ok e -> room_during evs s0 -> serves e s0 evs cs s -> cs !! i = Some c ->
  k_task c = TReading -> ended i evs = false ->
  exists read, received i evs = read ++ k_unread c /\ k_input c = unfinished read.
Proof.
  intros He Hroom Hrun Hc Ht Hend. destruct (serves_inv e He _ _ _ _ Hroom Hrun) as [_ Hinv].
  specialize (Hinv i). rewrite Hc in Hinv. destruct Hinv as [(P & fin & ms & HD & Hfin & Hinv) Heof].
  rewrite Ht in Hinv. destruct Hinv as (_ & Hsp & _). exists P. split; [done|].
  destruct fin; [exfalso; destruct Hfin; [done|congruence]|].
  unfold unfinished. cbn in Hsp. by rewrite Hsp.
Qed.

Lemma c107_suffix e s0 evs cs s i c :
  env_ok e -> room_during evs s0 -> serves e s0 evs cs s -> cs !! i = Some c ->
  k_task c <> TClosed -> kept c `suffix_of` received i evs.
Proof.
  intros He Hroom Hrun Hc Ht. destruct (serves_inv e He _ _ _ _ Hroom Hrun) as [_ Hinv].
  specialize (Hinv i). rewrite Hc in Hinv. destruct Hinv as [(P & fin & ms & HD & Hfin & Hinv) Heof].
  assert (Hs : forall ms pend x, spent P fin ms pend ->
    x = pend \/ (pend = [] /\ last ms = Some x) -> x `suffix_of` P).
  { clear. intros ms pend x Hsp Hx.
    assert (HP : exists q, P = q ++ concat ms ++ pend).
    { destruct fin; cbn in Hsp.
      - destruct Hsp as (ms0 & t & Hm & _ & _ & -> & ->). exists [].
        pose proof (messages_whole [] P) as H. rewrite Hm in H. cbn [fst snd app] in H.
        rewrite concat_app. cbn [concat app]. by rewrite !app_nil_r.
      - exists []. pose proof (messages_whole [] P) as H. rewrite Hsp in H. by cbn [fst snd app] in H. }
    destruct HP as [q ->]. destruct Hx as [->|[-> Hl]].
    - exists (q ++ concat ms). by rewrite <-app_assoc.
    - apply last_Some in Hl as [l ->]. rewrite concat_app. cbn [concat]. rewrite !app_nil_r.
      exists (q ++ concat l). by rewrite <-app_assoc. }
  unfold kept. rewrite HD.
  assert (Hk : k_input c `suffix_of` P).
  { destruct (k_task c) as [|p| |]; [| |done|].
    - destruct Hinv as (_ & Hsp & _). eapply Hs; [done|by left].
    - destruct Hinv as (_ & Hsp & _). eapply Hs; [done|right; split; [done|by rewrite last_snoc]].
    - destruct Hinv as (Hsp & _). eapply Hs; [done|right; split; [done|by rewrite last_snoc]]. }
  destruct Hk as [q Hq]. exists q. rewrite Hq at 1. by rewrite <-app_assoc.
Qed.


Lemma c107_unbounded e s0 (n : N) :
  exists evs c, serves e s0 evs [c] s0 /\ k_task c = TReading /\ at_rest e c s0 /\
    k_sent c = [] /\ (n <= lenN (kept c))%N.
Proof.
  set (bs := replicate (S (N.to_nat n)) (n2b 0)).
  assert (Hq : newline ∉ bs).
  { intros H. apply elem_of_replicate in H as [H _]. apply (f_equal b2n) in H. by vm_compute in H. }
  exists [EConnect; EDeliver 0 bs; EStep 0].
  exists (Conn [] false (lenN bs) bs req_ctx_new [] TReading).
  assert (Hcut : cut_line bs = None).
  { destruct (cut_line bs) as [[l r]|] eqn:E; [|done].
    apply cut_line_some in E as (E & l0 & -> & _). exfalso. apply Hq. rewrite E.
    apply elem_of_app. left. apply elem_of_app. right. by apply elem_of_list_singleton. }
  split_and!; try done.
  - unfold serves.
    assert (Hstep : conn_step e (Conn bs false 0 [] req_ctx_new [] TReading) s0 =
      Some (Conn [] false (lenN bs) bs req_ctx_new [] TReading, s0)).
    { unfold conn_step. cbn [k_task k_unread k_eof k_size k_input k_ctx k_sent]. rewrite Hcut.
      subst bs. cbn [replicate]. done. }
    cbn -[conn_step replicate lenN bs]. rewrite Hstep. done.
  - unfold kept. cbn [k_input k_unread]. rewrite app_nil_r. subst bs. unfold lenN.
    rewrite replicate_length. lia.
Qed.
