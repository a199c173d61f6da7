(** Calls that share one connection. *)
From Verif Require Import Bytes Value RespContext Metrics Prog Client Wire ShareSpec.
From stdpp Require Import list list_numbers.
From Coq Require Import NArith Lia ZifyNat ZifyN ZifyBool.

Lemma read_returns e arrives closed :
  wait_loop (S (length arrives)) e resp_ctx_new [] arrives closed = RErr CEConnectionClosed.
Proof.
  cbn [wait_loop]. unfold read_exact. change (lenN []) with 0%N.
  by replace (0 <=? lenN arrives)%N with true by lia.
Qed.

Local Arguments wait_loop : simpl never.

(** What holds at any time: [pieces] are what the calls wrote, by the order in which they got the
    lock. *)
Definition piece_ok (reqs : list bytes) (cs : list wire_call) (ip : nat * bytes) : Prop :=
  exists r, reqs !! ip.1 = Some r /\
  match cs !! ip.1 with
  | Some (WWriting rest) => r = ip.2 ++ rest
  | Some WReading | Some (WReturned (RErr CEConnectionClosed)) => ip.2 = r
  | Some WDropped | Some (WReturned (RErr CEWritingMessage)) => ip.2 `prefix_of` r
  | _ => False
  end.

Record winv (reqs : list bytes) (x : wire) (pieces : list (nat * bytes)) : Prop := {
  wi_len : length (w_calls x) = length reqs;
  wi_nodup : NoDup pieces.*1;
  wi_sent : w_sent x = concat pieces.*2;
  wi_ok : Forall (piece_ok reqs (w_calls x)) pieces;
  wi_all : forall i c, w_calls x !! i = Some c -> c <> WQueued -> c <> WDropped -> i ∈ pieces.*1;
  wi_ret : forall i r, w_calls x !! i = Some (WReturned r) ->
     r = RErr CEConnectionClosed \/ r = RErr CEWritingMessage;
  wi_holder : match w_holder x with
              | Some i => exists rest l p, w_calls x !! i = Some (WWriting rest) /\ pieces = l ++ [(i, p)]
              | None => True
              end;
  wi_writing : forall i rest, w_calls x !! i = Some (WWriting rest) -> w_holder x = Some i
}.

Lemma winv_new reqs : winv reqs (wire_new reqs) [].
Proof.
  split; cbn; auto.
  - by rewrite map_length.
  - constructor.
  - intros i c H. rewrite list_lookup_fmap in H. destruct (reqs !! i); cbn in H; naive_solver.
  - intros i c H. rewrite list_lookup_fmap in H. destruct (reqs !! i); cbn in H; naive_solver.
  - intros i c H. rewrite list_lookup_fmap in H. destruct (reqs !! i); cbn in H; naive_solver.
Qed.

(** A call that holds no piece, or keeps a fitting one, can change its state. *)
Lemma pieces_update reqs cs pieces i c :
  Forall (piece_ok reqs cs) pieces ->
  (forall p, (i, p) ∈ pieces -> piece_ok reqs (<[i:=c]> cs) (i, p)) ->
  Forall (piece_ok reqs (<[i:=c]> cs)) pieces.
Proof.
  rewrite !Forall_forall. intros H Hi [j p] Hin. destruct (decide (j = i)) as [->|Hne]; [by apply Hi|].
  specialize (H _ Hin). unfold piece_ok in *. cbn in *. by rewrite list_lookup_insert_ne.
Qed.

Lemma piece_at reqs cs pieces i p :
  Forall (piece_ok reqs cs) pieces -> (i, p) ∈ pieces -> piece_ok reqs cs (i, p).
Proof. rewrite Forall_forall. auto. Qed.

Lemma piece_last (l : list (nat * bytes)) i p p' :
  NoDup (l ++ [(i, p)]).*1 -> (i, p') ∈ l ++ [(i, p)] -> p' = p.
Proof.
  rewrite fmap_app, NoDup_app. intros (_ & Hd & _) [H|H]%elem_of_app.
  - exfalso. apply (Hd i); [|left]. apply elem_of_list_fmap. by exists (i, p').
  - apply elem_of_list_singleton in H. congruence.
Qed.

Lemma winv_step e reqs x ev y pieces :
  winv reqs x pieces -> wire_step e reqs x ev = Some y -> exists pieces', winv reqs y pieces'.
Proof.
  intros H E. pose proof H as [Hlen Hnd Hsent Hok Hall Hret Hh Hw]. destruct x as [cs sent h]. cbn in *.
  destruct ev as [i|i n|i|i|i arr cl|i].
  - destruct (cs !! i) as [[| | | |]|] eqn:Ei; try done. destruct h as [j|]; [done|].
    destruct (reqs !! i) as [r|] eqn:Er; [|done]. injection E as <-.
    pose proof (lookup_lt_Some _ _ _ Ei) as Hlt.
    assert (Hfresh : i ∉ pieces.*1).
    { intros ([j p] & -> & Hin)%elem_of_list_fmap. apply (piece_at _ _ _ _ _ Hok) in Hin.
      destruct Hin as (r' & _ & Hin). cbn in Hin. cbn in Ei. by rewrite Ei in Hin. }
    exists (pieces ++ [(i, [])]). split; cbn.
    + by rewrite insert_length.
    + rewrite fmap_app, NoDup_app. split_and!; [done| |apply NoDup_singleton].
      intros j Hj ->%elem_of_list_singleton. done.
    + rewrite fmap_app, concat_app, Hsent. cbn. by rewrite app_nil_r.
    + rewrite Forall_app, Forall_singleton. split.
      * apply pieces_update; [done|]. intros p Hin. destruct Hfresh. apply elem_of_list_fmap.
        by exists (i, p).
      * exists r. cbn. split; [done|]. by rewrite list_lookup_insert.
    + intros j c Hj Hc Hd. rewrite fmap_app, elem_of_app. destruct (decide (j = i)) as [->|Hne].
      * right. by left.
      * left. rewrite list_lookup_insert_ne in Hj by done. eauto.
    + intros j r' Hj. destruct (decide (j = i)) as [->|Hne].
      * rewrite list_lookup_insert in Hj by done. done.
      * rewrite list_lookup_insert_ne in Hj by done. eauto.
    + exists r, pieces, []. split; [|done]. by rewrite list_lookup_insert.
    + intros j rest Hj. destruct (decide (j = i)) as [->|Hne]; [done|].
      rewrite list_lookup_insert_ne in Hj by done. apply Hw in Hj. done.
  - destruct (cs !! i) as [[|rest| | |]|] eqn:Ei; try done. case_decide as Hn; [|done]. injection E as <-.
    pose proof (Hw _ _ Ei) as ->. destruct Hh as (rest' & l & p & Ei' & ->).
    rewrite Ei in Ei'. injection Ei' as <-. pose proof (lookup_lt_Some _ _ _ Ei) as Hlt.
    assert (Hip : piece_ok reqs cs (i, p)).
    { apply (piece_at _ _ _ _ _ Hok). apply elem_of_app. right. by left. }
    destruct Hip as (r & Er & Hr). cbn in Er, Hr. rewrite Ei in Hr.
    apply Forall_app in Hok as [Hokl _].
    exists (l ++ [(i, p ++ take n rest)]). split; cbn.
    + by rewrite insert_length.
    + rewrite fmap_app in *. done.
    + rewrite Hsent, !fmap_app, !concat_app. cbn. by rewrite !app_nil_r, <- app_assoc.
    + rewrite Forall_app, Forall_singleton. split.
      * apply pieces_update; [done|]. intros p' Hin. exfalso.
        rewrite fmap_app, NoDup_app in Hnd. destruct Hnd as (_ & Hd & _). apply (Hd i); [|by left].
        apply elem_of_list_fmap. by exists (i, p').
      * exists r. cbn. split; [done|]. rewrite list_lookup_insert by done.
        by rewrite <- app_assoc, take_drop.
    + intros j c Hj Hc Hd. destruct (decide (j = i)) as [->|Hne].
      * rewrite fmap_app, elem_of_app. right. by left.
      * rewrite list_lookup_insert_ne in Hj by done. pose proof (Hall _ _ Hj Hc Hd) as Hin.
        rewrite fmap_app in *. done.
    + intros j r' Hj. destruct (decide (j = i)) as [->|Hne].
      * rewrite list_lookup_insert in Hj by done. done.
      * rewrite list_lookup_insert_ne in Hj by done. eauto.
    + exists (drop n rest), l, (p ++ take n rest). split; [|done]. by rewrite list_lookup_insert.
    + intros j rest' Hj. destruct (decide (j = i)) as [->|Hne]; [done|].
      rewrite list_lookup_insert_ne in Hj by done. apply Hw in Hj. congruence.
  - destruct (cs !! i) as [[|[|]| | |]|] eqn:Ei; try done. injection E as <-.
    pose proof (Hw _ _ Ei) as ->. pose proof (lookup_lt_Some _ _ _ Ei) as Hlt.
    exists pieces. split; cbn; auto.
    + by rewrite insert_length.
    + apply pieces_update; [done|]. intros p Hin. apply (piece_at _ _ _ _ _ Hok) in Hin.
      destruct Hin as (r & Er & Hr). cbn in Er, Hr. rewrite Ei in Hr. exists r. cbn.
      rewrite list_lookup_insert by done. split; [done|]. by rewrite app_nil_r in Hr.
    + intros j c Hj Hc Hd. destruct (decide (j = i)) as [->|Hne]; [by eapply Hall|].
      rewrite list_lookup_insert_ne in Hj by done. eauto.
    + intros j r' Hj. destruct (decide (j = i)) as [->|Hne].
      * rewrite list_lookup_insert in Hj by done. done.
      * rewrite list_lookup_insert_ne in Hj by done. eauto.
    + intros j rest' Hj. destruct (decide (j = i)) as [->|Hne].
      * rewrite list_lookup_insert in Hj by done. done.
      * rewrite list_lookup_insert_ne in Hj by done. apply Hw in Hj. congruence.
  - destruct (cs !! i) as [[|rest| | |]|] eqn:Ei; try done. injection E as <-.
    pose proof (Hw _ _ Ei) as ->. pose proof (lookup_lt_Some _ _ _ Ei) as Hlt.
    exists pieces. split; cbn; auto.
    + by rewrite insert_length.
    + apply pieces_update; [done|]. intros p Hin. apply (piece_at _ _ _ _ _ Hok) in Hin.
      destruct Hin as (r & Er & Hr). cbn in Er, Hr. rewrite Ei in Hr. exists r. cbn.
      rewrite list_lookup_insert by done. split; [done|]. by exists rest.
    + intros j c Hj Hc Hd. destruct (decide (j = i)) as [->|Hne]; [by eapply Hall|].
      rewrite list_lookup_insert_ne in Hj by done. eauto.
    + intros j r' Hj. destruct (decide (j = i)) as [->|Hne].
      * rewrite list_lookup_insert in Hj by done. injection Hj as <-. auto.
      * rewrite list_lookup_insert_ne in Hj by done. eauto.
    + intros j rest' Hj. destruct (decide (j = i)) as [->|Hne].
      * rewrite list_lookup_insert in Hj by done. done.
      * rewrite list_lookup_insert_ne in Hj by done. apply Hw in Hj. congruence.
  - destruct (cs !! i) as [[|rest| | |]|] eqn:Ei; try done.
    rewrite read_returns in E. injection E as <-. pose proof (lookup_lt_Some _ _ _ Ei) as Hlt.
    exists pieces. split; cbn; auto.
    + by rewrite insert_length.
    + apply pieces_update; [done|]. intros p Hin. apply (piece_at _ _ _ _ _ Hok) in Hin.
      destruct Hin as (r & Er & Hr). cbn in Er, Hr. rewrite Ei in Hr. exists r. cbn.
      by rewrite list_lookup_insert.
    + intros j c Hj Hc Hd. destruct (decide (j = i)) as [->|Hne]; [by eapply Hall|].
      rewrite list_lookup_insert_ne in Hj by done. eauto.
    + intros j r' Hj. destruct (decide (j = i)) as [->|Hne].
      * rewrite list_lookup_insert in Hj by done. injection Hj as <-. auto.
      * rewrite list_lookup_insert_ne in Hj by done. eauto.
    + destruct h as [j|]; [|done]. destruct Hh as (rest & l & p & Hj & ->). exists rest, l, p. split; [|done].
      destruct (decide (j = i)) as [->|Hne]; [congruence|]. by rewrite list_lookup_insert_ne.
    + intros j rest' Hj. destruct (decide (j = i)) as [->|Hne].
      * rewrite list_lookup_insert in Hj by done. done.
      * rewrite list_lookup_insert_ne in Hj by done. by apply Hw in Hj.
  - destruct (cs !! i) as [[|rest| | |]|] eqn:Ei; try done; injection E as <-;
      pose proof (lookup_lt_Some _ _ _ Ei) as Hlt.
    + exists pieces. split; cbn; auto.
      * by rewrite insert_length.
      * apply pieces_update; [done|]. intros p Hin. apply (piece_at _ _ _ _ _ Hok) in Hin.
        destruct Hin as (r & Er & Hr). cbn in Er, Hr. by rewrite Ei in Hr.
      * intros j c Hj Hc Hd. destruct (decide (j = i)) as [->|Hne].
        { rewrite list_lookup_insert in Hj by done. congruence. }
        rewrite list_lookup_insert_ne in Hj by done. eauto.
      * intros j r' Hj. destruct (decide (j = i)) as [->|Hne].
        { rewrite list_lookup_insert in Hj by done. done. }
        rewrite list_lookup_insert_ne in Hj by done. eauto.
      * destruct h as [j|]; [|done]. destruct Hh as (rest & l & p & Hj & ->). exists rest, l, p. split; [|done].
        destruct (decide (j = i)) as [->|Hne]; [congruence|]. by rewrite list_lookup_insert_ne.
      * intros j rest' Hj. destruct (decide (j = i)) as [->|Hne].
        { rewrite list_lookup_insert in Hj by done. done. }
        rewrite list_lookup_insert_ne in Hj by done. by apply Hw in Hj.
    + pose proof (Hw _ _ Ei) as ->. exists pieces. split; cbn; auto.
      * by rewrite insert_length.
      * apply pieces_update; [done|]. intros p Hin. apply (piece_at _ _ _ _ _ Hok) in Hin.
        destruct Hin as (r & Er & Hr). cbn in Er, Hr. rewrite Ei in Hr. exists r. cbn.
        rewrite list_lookup_insert by done. split; [done|]. by exists rest.
      * intros j c Hj Hc Hd. destruct (decide (j = i)) as [->|Hne].
        { rewrite list_lookup_insert in Hj by done. congruence. }
        rewrite list_lookup_insert_ne in Hj by done. eauto.
      * intros j r' Hj. destruct (decide (j = i)) as [->|Hne].
        { rewrite list_lookup_insert in Hj by done. done. }
        rewrite list_lookup_insert_ne in Hj by done. eauto.
      * intros j rest' Hj. destruct (decide (j = i)) as [->|Hne].
        { rewrite list_lookup_insert in Hj by done. done. }
        rewrite list_lookup_insert_ne in Hj by done. apply Hw in Hj. congruence.
    + exists pieces. split; cbn; auto.
      * by rewrite insert_length.
      * apply pieces_update; [done|]. intros p Hin. apply (piece_at _ _ _ _ _ Hok) in Hin.
        destruct Hin as (r & Er & Hr). cbn in Er, Hr. rewrite Ei in Hr. subst r. exists p. cbn.
        by rewrite list_lookup_insert.
      * intros j c Hj Hc Hd. destruct (decide (j = i)) as [->|Hne].
        { rewrite list_lookup_insert in Hj by done. congruence. }
        rewrite list_lookup_insert_ne in Hj by done. eauto.
      * intros j r' Hj. destruct (decide (j = i)) as [->|Hne].
        { rewrite list_lookup_insert in Hj by done. done. }
        rewrite list_lookup_insert_ne in Hj by done. eauto.
      * destruct h as [j|]; [|done]. destruct Hh as (rest & l & p & Hj & ->). exists rest, l, p. split; [|done].
        destruct (decide (j = i)) as [->|Hne]; [congruence|]. by rewrite list_lookup_insert_ne.
      * intros j rest' Hj. destruct (decide (j = i)) as [->|Hne].
        { rewrite list_lookup_insert in Hj by done. done. }
        rewrite list_lookup_insert_ne in Hj by done. by apply Hw in Hj.
Qed.

Lemma winv_run e reqs evs x pieces y :
  winv reqs x pieces -> wire_run e reqs evs x = Some y -> exists pieces', winv reqs y pieces'.
Proof.
  revert x pieces. induction evs as [|ev evs IH]; intros x pieces H E; cbn in E.
  - injection E as <-. eauto.
  - destruct (wire_step e reqs x ev) as [z|] eqn:Ez; [|done].
    destruct (winv_step _ _ _ _ _ _ H Ez) as [pieces' H']. eauto.
Qed.

Lemma mapM_pieces (reqs : list bytes) (cs : list wire_call) (l : list (nat * bytes)) :
  (forall i p, (i, p) ∈ l -> reqs !! i = Some p) ->
  mapM (fun i => reqs !! i) l.*1 = Some l.*2.
Proof.
  induction l as [|[i p] l IH]; intros H; [done|]. cbn.
  rewrite (H i p) by left. cbn. rewrite IH; [done|]. intros j q Hin. apply H. by right.
Qed.

Lemma c83_whole e reqs evs x :
  wire_run e reqs evs (wire_new reqs) = Some x ->
  (forall i c, w_calls x !! i = Some c -> ~ cut_off c) ->
  exists order part,
    in_turn reqs order part (w_sent x) /\
    (forall i c, w_calls x !! i = Some c ->
       match c with
       | WQueued => i ∉ order
       | WWriting rest => i ∉ order /\ reqs !! i = Some (part ++ rest)
       | _ => i ∈ order
       end) /\
    ((forall i rest, w_calls x !! i <> Some (WWriting rest)) -> part = []).
Proof.
  intros E Hc. destruct (winv_run _ _ _ _ _ _ (winv_new reqs) E) as [pieces [Hlen Hnd Hsent Hok Hall Hret Hh Hw]].
  destruct (w_holder x) as [h|] eqn:Eh.
  - destruct Hh as (rest & l & p & Hi & ->). apply Forall_app in Hok as [Hokl Hokh].
    apply Forall_singleton in Hokh as (r & Er & Hr). cbn in Er, Hr. rewrite Hi in Hr.
    rewrite fmap_app in Hnd. pose proof Hnd as Hnd'. apply NoDup_app in Hnd as (Hndl & Hd & _).
    assert (Hfresh : h ∉ l.*1). { intros Hin. apply (Hd h Hin). by left. }
    exists l.*1, p. split_and!.
    + split; [done|]. exists l.*2. split.
      * apply (mapM_pieces _ (w_calls x)). intros i q Hin.
        assert (i <> h). { intros ->. apply Hfresh. apply elem_of_list_fmap. by exists (h, q). }
        apply (piece_at _ _ _ _ _ Hokl) in Hin. destruct Hin as (r' & Er' & Hr'). cbn in Er', Hr'.
        destruct (w_calls x !! i) as [[|rest'| |res|]|] eqn:Ei; try done.
        -- apply Hw in Ei. congruence.
        -- by subst.
        -- destruct (Hret _ _ Ei) as [->| ->]; [by subst|]. destruct (Hc _ _ Ei). by right.
        -- destruct (Hc _ _ Ei). by left.
      * rewrite Hsent, fmap_app, concat_app. cbn. by rewrite app_nil_r.
    + intros i c Ei. assert (Hin : c <> WQueued -> i ∈ l.*1 \/ i = h).
      { intros Hq. assert (Hdr : c <> WDropped). { intros ->. destruct (Hc _ _ Ei). by left. }
        pose proof (Hall _ _ Ei Hq Hdr) as Hin. rewrite fmap_app, elem_of_app in Hin.
        destruct Hin as [Hin|Hin]; [by left|]. right. by apply elem_of_list_singleton in Hin. }
      destruct c as [|rest'| |res|].
      * intros ([j q] & -> & Hjq)%elem_of_list_fmap. apply (piece_at _ _ _ _ _ Hokl) in Hjq.
        destruct Hjq as (? & _ & Hjq). cbn in *. by rewrite Ei in Hjq.
      * pose proof (Hw _ _ Ei) as Hih. injection Hih as <-. rewrite Hi in Ei. injection Ei as <-.
        split; [done|]. by rewrite Er, Hr.
      * destruct Hin as [?| ->]; [done|done|congruence].
      * destruct Hin as [?| ->]; [done|done|congruence].
      * destruct Hin as [?| ->]; [done|done|congruence].
    + intros Hno. by destruct (Hno _ _ Hi).
  - exists pieces.*1, []. split_and!; [| |done].
    + split; [done|]. exists pieces.*2. split; [|by rewrite app_nil_r].
      apply (mapM_pieces _ (w_calls x)). intros i q Hin.
      apply (piece_at _ _ _ _ _ Hok) in Hin. destruct Hin as (r' & Er' & Hr'). cbn in Er', Hr'.
      destruct (w_calls x !! i) as [[|rest'| |res|]|] eqn:Ei; try done.
      * apply Hw in Ei. congruence.
      * by subst.
      * destruct (Hret _ _ Ei) as [->| ->]; [by subst|]. destruct (Hc _ _ Ei). by right.
      * destruct (Hc _ _ Ei). by left.
    + intros i c Ei. assert (Hin : c <> WQueued -> i ∈ pieces.*1).
      { intros Hq. eapply Hall; [done|done|]. intros ->. destruct (Hc _ _ Ei). by left. }
      destruct c as [|rest'| |res|]; try by apply Hin.
      * intros ([j q] & -> & Hjq)%elem_of_list_fmap. apply (piece_at _ _ _ _ _ Hok) in Hjq.
        destruct Hjq as (? & _ & Hjq). cbn in *. by rewrite Ei in Hjq.
      * apply Hw in Ei. congruence.
Qed.

Lemma c83_results e reqs evs x i r :
  wire_run e reqs evs (wire_new reqs) = Some x ->
  w_calls x !! i = Some (WReturned r) ->
  r = RErr CEConnectionClosed \/ r = RErr CEWritingMessage.
Proof.
  intros E Hi. destruct (winv_run _ _ _ _ _ _ (winv_new reqs) E) as [pieces H]. by eapply wi_ret.
Qed.

Definition weight (c : wire_call) : nat :=
  match c with WQueued => 3 | WWriting _ => 2 | WReading => 1 | _ => 0 end.

Lemma weight_insert (cs : list wire_call) i c c' :
  cs !! i = Some c ->
  (sum_list_with weight (<[i:=c']> cs) + weight c = sum_list_with weight cs + weight c')%nat.
Proof.
  revert i. induction cs as [|d cs IH]; intros [|i] H; cbn in H; try done.
  - injection H as ->. cbn. lia.
  - change (<[S i:=c']> (d :: cs)) with (d :: <[i:=c']> cs). cbn [sum_list_with]. specialize (IH _ H).
    change (sum_list_with weight (d :: cs)) with (weight d + sum_list_with weight cs)%nat. lia.
Qed.

Lemma wire_run_app e reqs evs evs' x :
  wire_run e reqs (evs ++ evs') x =
  match wire_run e reqs evs x with Some y => wire_run e reqs evs' y | None => None end.
Proof.
  revert x. induction evs as [|ev evs IH]; intros x; [done|]. cbn.
  by destruct (wire_step e reqs x ev).
Qed.

(** Nothing fails, nothing is dropped, and nothing has come to be read. *)
Definition calm (ev : wire_event) : Prop :=
  match ev with WFail _ | WDrop _ => False | WRead _ arrives _ => arrives = [] | _ => True end.

Lemma calm_smooth ev : calm ev -> smooth ev.
Proof. by destruct ev. Qed.

(** From any state, a call that is not over can be brought forward. *)
Lemma forward e reqs x pieces i c :
  winv reqs x pieces -> w_calls x !! i = Some c -> ~ is_over c ->
  exists evs y, Forall calm evs /\ wire_run e reqs evs x = Some y /\
    (sum_list_with weight (w_calls y) < sum_list_with weight (w_calls x))%nat.
Proof.
  intros [Hlen Hnd Hsent Hok Hall Hret Hh Hw] Hi Hc. destruct x as [cs sent h]. cbn in *.
  destruct h as [h|].
  - destruct Hh as (rest & _ & _ & Eh & _). destruct rest as [|b rest].
    + exists [WDone h], (Wire (<[h:=WReading]> cs) sent None). split_and!.
      * by repeat constructor.
      * cbn. by rewrite Eh.
      * cbn. pose proof (weight_insert _ _ _ WReading Eh) as W. cbn in W. lia.
    + pose proof (lookup_lt_Some _ _ _ Eh) as Hlt.
      exists [WWrite h (length (b :: rest)); WDone h],
        (Wire (<[h:=WReading]> cs) (sent ++ b :: rest) None). split_and!.
      * by repeat constructor.
      * cbn [wire_run wire_step]. rewrite Eh. rewrite decide_True by (cbn; lia).
        rewrite take_ge, drop_ge by done. cbn [wire_run wire_step].
        rewrite list_lookup_insert by done. by rewrite list_insert_insert.
      * cbn. pose proof (weight_insert _ _ _ WReading Eh) as W. cbn in W. lia.
  - destruct c as [|rest| |r|]; try done.
    + destruct (lookup_lt_is_Some_2 reqs i) as [r Er].
      { rewrite <- Hlen. by eapply lookup_lt_Some. }
      exists [WLock i], (Wire (<[i:=WWriting r]> cs) sent (Some i)). split_and!.
      * by repeat constructor.
      * cbn. by rewrite Hi, Er.
      * cbn. pose proof (weight_insert _ _ _ (WWriting r) Hi) as W. cbn in W. lia.
    + apply Hw in Hi. done.
    + exists [WRead i [] true], (Wire (<[i:=WReturned (RErr CEConnectionClosed)]> cs) sent None). split_and!.
      * by repeat constructor.
      * cbn [wire_run wire_step]. rewrite Hi, read_returns. done.
      * cbn. pose proof (weight_insert _ _ _ (WReturned (RErr CEConnectionClosed)) Hi) as W. cbn in W. lia.
Qed.

Lemma calm_finishes e reqs x pieces :
  winv reqs x pieces ->
  exists more y, Forall calm more /\ wire_run e reqs more x = Some y /\
    forall i c, w_calls y !! i = Some c -> is_over c.
Proof.
  intros H.
  assert (Hgo : forall m x pieces, winv reqs x pieces -> (sum_list_with weight (w_calls x) <= m)%nat ->
    exists more y, Forall calm more /\ wire_run e reqs more x = Some y /\
    forall i c, w_calls y !! i = Some c -> is_over c).
  { clear. induction m as [m IH] using lt_wf_ind. intros x pieces H Hm.
    destruct (decide (Exists (fun c => 0 < weight c)%nat (w_calls x))) as [Hex|Hno].
    - apply Exists_exists in Hex as (c & Hin & Hc). apply elem_of_list_lookup in Hin as [i Hi].
      destruct (forward e reqs x pieces i c H Hi) as (evs & y & Hs & Hr & Hlt).
      { destruct c; cbn in Hc; try lia; by intros []. }
      destruct (winv_run _ _ _ _ _ _ H Hr) as [pieces' H'].
      destruct (IH (sum_list_with weight (w_calls y)) ltac:(lia) y pieces' H' ltac:(lia))
        as (more & z & Hs' & Hr' & Hz).
      exists (evs ++ more), z. split_and!; [by apply Forall_app| |done].
      rewrite wire_run_app, Hr. done.
    - exists [], x. split_and!; [constructor|done|]. intros i c Hi.
      rewrite Exists_exists in Hno. destruct c; cbn; try done; destruct Hno;
        (eexists; split; [by eapply elem_of_list_lookup_2|cbn; lia]). }
  apply (Hgo _ x pieces H ltac:(reflexivity)).
Qed.

Lemma c83_finishes e reqs evs x :
  wire_run e reqs evs (wire_new reqs) = Some x ->
  exists more y, Forall smooth more /\ wire_run e reqs (evs ++ more) (wire_new reqs) = Some y /\
    forall i c, w_calls y !! i = Some c -> is_over c.
Proof.
  intros E. destruct (winv_run _ _ _ _ _ _ (winv_new reqs) E) as [pieces H].
  destruct (calm_finishes e reqs x pieces H) as (more & y & Hs & Hr & Hy).
  exists more, y. split_and!; [eapply Forall_impl; [exact Hs|apply calm_smooth]| |done]. by rewrite wire_run_app, E.
Qed.

(** A call dropped while it writes: the bytes of the next one follow the part. *)
Lemma c83_cut e (a b : bytes) n :
  (1 <= n <= length a)%nat -> b <> [] ->
  exists evs x, wire_run e [a; b] evs (wire_new [a; b]) = Some x /\
    w_calls x = [WDropped; WReturned (RErr CEConnectionClosed)] /\
    w_sent x = take n a ++ b.
Proof.
  intros Hn Hb.
  exists [WLock 0; WWrite 0 n; WDrop 0; WLock 1; WWrite 1 (length b); WDone 1; WRead 1 [] true].
  exists (Wire [WDropped; WReturned (RErr CEConnectionClosed)] (take n a ++ b) None).
  split; [|done].
  cbn [wire_run]. cbn [wire_new map wire_step lookup list_lookup insert list_insert].
  rewrite decide_True by done.
  cbn [wire_run wire_step lookup list_lookup insert list_insert].
  rewrite decide_True. 2:{ destruct b; [done|]. cbn. lia. }
  rewrite (take_ge b), (drop_ge b) by done.
  cbn [wire_run wire_step lookup list_lookup insert list_insert].
  rewrite read_returns. reflexivity.
Qed.
