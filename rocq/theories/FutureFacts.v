(** Proofs about requests as futures. *)
From Coq Require Import String.
From Verif Require Import Bytes Value Metrics Prog Commands HistorySpec Client ClientSpec Futures
  FutureSpec.
From stdpp Require Import gmap list.
From Coq Require Import Lia.

Lemma mem_calls_app h1 h2 s :
  (mem_calls (h1 ++ h2) s).1 = (mem_calls h2 (mem_calls h1 s).1).1.
Proof.
  revert s; induction h1 as [|[e c] h1 IH]; intros s; cbn [mem_calls app]; [done|].
  destruct (mem_call e s c) as [s1 r]. specialize (IH s1).
  destruct (mem_calls (h1 ++ h2) s1), (mem_calls h1 s1). exact IH.
Qed.

Lemma events_snoc h ev s : events (h ++ [ev]) s = event_step (events h s) ev.
Proof. unfold events. by rewrite fold_left_app. Qed.

Lemma first_poll_app h ev j : (j < length h)%nat -> first_poll (h ++ [ev]) j = first_poll h j.
Proof.
  intros Hj. unfold first_poll. rewrite lookup_app_l by done.
  by rewrite take_app_le by lia.
Qed.
Lemma first_poll_snoc h ev : first_poll (h ++ [ev]) (length h) =
  match ev with
  | EPoll e i => if was_polled i h then None else (fun c => (e, c)) <$> made h !! i
  | _ => None
  end.
Proof.
  unfold first_poll. rewrite lookup_app_r, Nat.sub_diag by done. cbn.
  by rewrite take_app.
Qed.
Lemma first_polls_snoc h ev :
  first_polls (h ++ [ev]) = first_polls h ++ from_option (fun x => [x]) [] (first_poll (h ++ [ev]) (length h)).
Proof.
  unfold first_polls. rewrite app_length. cbn [length].
  rewrite Nat.add_1_r, seq_S, Nat.add_0_l.
  rewrite omap_app. f_equal.
  assert (H : forall l, Forall (fun j => (j < length h)%nat) l ->
      omap (first_poll (h ++ [ev])) l = omap (first_poll h) l).
  { induction 1 as [|j l Hj _ IH]; [done|]. cbn. by rewrite first_poll_app, IH. }
  apply H, Forall_forall. intros j Hj%elem_of_seq. lia.
Qed.

Lemma lawful_app h ev : lawful (h ++ [ev]) -> lawful h.
Proof.
  intros H j ev' i Hj Hu. destruct (H j ev' i) as [H1 H2]; [by apply lookup_app_l_Some|done|].
  pose proof (lookup_lt_Some _ _ _ Hj).
  by rewrite take_app_le in H1, H2 by lia.
Qed.
Lemma lawful_last h ev i : lawful (h ++ [ev]) -> uses ev = Some i ->
  (i < length (made h))%nat /\ was_dropped i h = false.
Proof.
  intros H Hu. specialize (H (length h) ev i). rewrite take_app in H. apply H; [|done].
  by rewrite lookup_app_r, Nat.sub_diag by done.
Qed.

Lemma made_snoc h ev : made (h ++ [ev]) = made h ++ match ev with EMake c => [c] | _ => [] end.
Proof. unfold made. rewrite omap_app. by destruct ev. Qed.
Lemma polled_snoc i h ev : was_polled i (h ++ [ev]) =
  was_polled i h || match ev with EPoll _ j => (i =? j)%nat | _ => false end.
Proof. unfold was_polled. rewrite existsb_app. cbn. by rewrite orb_false_r. Qed.
Lemma dropped_snoc i h ev : was_dropped i (h ++ [ev]) =
  was_dropped i h || match ev with EDrop j => (i =? j)%nat | _ => false end.
Proof. unfold was_dropped. rewrite existsb_app. cbn. by rewrite orb_false_r. Qed.

(** Only a request that has been made has been polled or dropped. *)
Lemma lawful_used h i : lawful h -> was_polled i h || was_dropped i h = true ->
  (i < length (made h))%nat.
Proof.
  induction h as [|ev h IH] using rev_ind; intros Hl Hu; [done|].
  rewrite made_snoc, app_length. rewrite polled_snoc, dropped_snoc in Hu.
  destruct (was_polled i h || was_dropped i h) eqn:E.
  { specialize (IH (lawful_app _ _ Hl) eq_refl). lia. }
  apply orb_false_iff in E as [E1 E2]. rewrite E1, E2 in Hu. cbn in Hu.
  destruct (lawful_last h ev i Hl) as [H _]; [|lia].
  destruct ev as [c|e j|j]; cbn in *; [done| |]; rewrite ?orb_false_r in Hu;
    apply Nat.eqb_eq in Hu; by subst.
Qed.

Definition spent (q : request) : Prop :=
  q = Request None (Some Returned) \/ q = Request None (Some Poisoned).

Definition slot_ok (h : list event) (i : nat) (c : client_call) (o : option request) : Prop :=
  if was_dropped i h then o = None
  else exists q, o = Some q /\ if was_polled i h then spent q else q = request_new c.

Record ok (h : list event) (s : store) (p : program) : Prop := Ok {
  ok_store : pr_store p = (mem_calls (first_polls h) s).1;
  ok_len : length (pr_requests p) = length (made h);
  ok_slot : forall i c o, made h !! i = Some c -> pr_requests p !! i = Some o -> slot_ok h i c o;
  ok_seen_len : length (pr_seen p) = length h }.

Lemma poll_spent e s q : spent q -> exists q', poll e s q = (s, q', PollPanics) /\ spent q'.
Proof. intros [-> | ->]; cbn; eexists; (split; [done|]); [left|right]; done. Qed.

Lemma poll_new e s c : exists q', spent q' /\
  poll e s (request_new c) = ((mem_call e s c).1, q',
    match (mem_call e s c).2 with RPanic => PollPanics | r => PollReady r end).
Proof.
  unfold poll, request_new, resume. cbn. destruct (mem_call e s c) as [s1 r]; cbn.
  destruct r; eexists; (split; [|done]); ((by left) || by right).
Qed.

Lemma mem_calls_one e c s : (mem_calls [(e, c)] s).1 = (mem_call e s c).1.
Proof. cbn. by destruct (mem_call e s c). Qed.

Lemma events_ok h s : lawful h -> ok h s (events h s).
Proof.
  induction h as [|ev h IH] using rev_ind; intros Hl.
  { split; cbn; try done. }
  pose proof (IH (lawful_app _ _ Hl)) as [Hs Hn Hq Hk].
  rewrite events_snoc. destruct (events h s) as [s0 qs out] eqn:E. cbn in Hs, Hn, Hq, Hk.
  destruct ev as [c|e i|i]; cbn [event_step].
  - split; cbn [pr_store pr_requests pr_seen].
    + rewrite first_polls_snoc, first_poll_snoc. cbn. by rewrite app_nil_r.
    + rewrite made_snoc, !app_length. cbn. lia.
    + intros k c' o Hc Ho. rewrite made_snoc in Hc.
      unfold slot_ok. rewrite dropped_snoc, polled_snoc, !orb_false_r.
      destruct (decide (k < length (made h))%nat) as [Hlt|Hge].
      * rewrite lookup_app_l in Hc by done. rewrite lookup_app_l in Ho by lia. by apply Hq.
      * assert (was_polled k h || was_dropped k h = false) as [-> ->]%orb_false_iff.
        { destruct (was_polled k h || was_dropped k h) eqn:Eu; [|done].
          apply lawful_used in Eu; [lia|]. by eapply lawful_app. }
        rewrite lookup_app_r in Hc by lia. rewrite lookup_app_r in Ho by lia.
        apply list_lookup_singleton_Some in Hc as [H1 <-].
        apply list_lookup_singleton_Some in Ho as [H2 <-]. eauto.
    + rewrite !app_length. cbn. lia.
  - destruct (lawful_last _ _ i Hl eq_refl) as [Hi Hd].
    destruct (lookup_lt_is_Some_2 (made h) i Hi) as [c Hc].
    destruct (lookup_lt_is_Some_2 qs i) as [o Ho]; [lia|].
    pose proof (Hq i c o Hc Ho) as Hslot. unfold slot_ok in Hslot. rewrite Hd in Hslot.
    destruct Hslot as (q & -> & Hslot). rewrite Ho.
    assert (Hp : exists s1 q' r, poll e s0 q = (s1, q', r) /\ spent q' /\
      s1 = (mem_calls (first_polls (h ++ [EPoll e i])) s).1).
    { rewrite first_polls_snoc, first_poll_snoc, mem_calls_app, <- Hs.
      destruct (was_polled i h).
      - destruct (poll_spent e s0 q Hslot) as (q' & -> & Hsp). by eexists _, _, _.
      - subst q. destruct (poll_new e s0 c) as (q' & Hsp & ->). eexists _, _, _. split; [done|].
        split; [done|]. rewrite Hc. cbn [fmap option_fmap option_map from_option].
        by rewrite mem_calls_one. }
    destruct Hp as (s1 & q' & r & -> & Hsp & Hs1).
    split; cbn [pr_store pr_requests pr_seen].
    + done.
    + rewrite made_snoc, app_nil_r, insert_length. done.
    + intros k c' o Hc' Ho'. rewrite made_snoc, app_nil_r in Hc'.
      unfold slot_ok. rewrite dropped_snoc, polled_snoc, orb_false_r.
      destruct (decide (k = i)) as [->|Hne].
      * rewrite list_lookup_insert in Ho' by lia. injection Ho' as <-.
        rewrite Hd, Nat.eqb_refl, orb_true_r. eauto.
      * rewrite list_lookup_insert_ne in Ho' by done.
        assert (k =? i = false)%nat as -> by (by apply Nat.eqb_neq).
        rewrite orb_false_r. by apply (Hq k).
    + rewrite !app_length. cbn. lia.
  - destruct (lawful_last _ _ i Hl eq_refl) as [Hi Hd].
    split; cbn [pr_store pr_requests pr_seen].
    + rewrite first_polls_snoc, first_poll_snoc. cbn. by rewrite app_nil_r.
    + rewrite made_snoc, app_nil_r, insert_length. done.
    + intros k c' o Hc' Ho'. rewrite made_snoc, app_nil_r in Hc'.
      unfold slot_ok. rewrite dropped_snoc, polled_snoc, orb_false_r.
      destruct (decide (k = i)) as [->|Hne].
      * rewrite list_lookup_insert in Ho' by lia. injection Ho' as <-.
        by rewrite Nat.eqb_refl, orb_true_r.
      * rewrite list_lookup_insert_ne in Ho' by done.
        assert (k =? i = false)%nat as -> by (by apply Nat.eqb_neq).
        rewrite orb_false_r. by apply (Hq k).
    + rewrite !app_length. cbn. lia.
Qed.

(** What is seen at an event depends on the events before it only. *)
Lemma seen_step p ev : exists x, pr_seen (event_step p ev) = pr_seen p ++ [x].
Proof.
  destruct p as [s qs out], ev as [c|e i|i]; cbn; [by eexists| |by eexists].
  destruct (qs !! i) as [[q|]|]; [|by eexists..].
  destruct (poll e s q) as [[s1 q'] r]. by eexists.
Qed.
Lemma seen_app h1 h2 s : exists l, pr_seen (events (h1 ++ h2) s) = pr_seen (events h1 s) ++ l.
Proof.
  induction h2 as [|ev h2 IH] using rev_ind; [exists []; by rewrite !app_nil_r|].
  rewrite app_assoc, events_snoc. destruct (seen_step (events (h1 ++ h2) s) ev) as [x ->].
  destruct IH as [l ->]. exists (l ++ [x]). by rewrite app_assoc.
Qed.

Lemma lawful_take h n : lawful h -> lawful (take n h).
Proof.
  intros H j ev i Hj Hu. pose proof (lookup_lt_Some _ _ _ Hj) as Hlt.
  rewrite take_length in Hlt. rewrite lookup_take in Hj by lia.
  rewrite take_take, Nat.min_l by lia. by eapply H.
Qed.

Lemma c75 (h : list event) (s : store) :
  lawful h ->
  pr_store (events h s) = (mem_calls (first_polls h) s).1 /\
  length (pr_seen (events h s)) = length h /\
  forall j ev, h !! j = Some ev ->
    pr_seen (events h s) !! j = Some
      (match first_poll h j with
       | Some (e, c) => shows (mem_call e (mem_calls (first_polls (take j h)) s).1 c).2
       | None => match ev with EPoll _ _ => SPanic | _ => SNothing end
       end).
Proof.
  intros Hl. destruct (events_ok h s Hl) as [Hs _ _ Hk]. split; [done|]. split; [done|].
  intros j ev Hj. pose proof (lookup_lt_Some _ _ _ Hj) as Hlt.
  rewrite <- (take_drop_middle h j ev Hj) at 1. rewrite cons_middle, app_assoc.
  destruct (seen_app (take j h ++ [ev]) (drop (S j) h) s) as [l ->].
  assert (Hl1 : lawful (take j h ++ [ev])).
  { rewrite <- (take_S_r h j ev Hj). by apply lawful_take. }
  assert (Hf : first_poll h j = first_poll (take j h ++ [ev]) (length (take j h))).
  { unfold first_poll. rewrite Hj, lookup_app_r, Nat.sub_diag by done. cbn [lookup list_lookup].
    by rewrite take_app. }
  rewrite Hf. clear Hf.
  set (g := take j h) in *. assert (Hg : length g = j) by (unfold g; rewrite take_length; lia).
  clearbody g. clear h Hl Hs Hk Hj Hlt. subst j.
  destruct (events_ok g s (lawful_app _ _ Hl1)) as [Hs Hn Hq Hk].
  rewrite lookup_app_l.
  2: { rewrite events_snoc. destruct (seen_step (events g s) ev) as [x ->].
       rewrite app_length. cbn. lia. }
  rewrite first_poll_snoc, events_snoc. rewrite <- Hs.
  destruct (events g s) as [s0 qs out] eqn:E. cbn in Hs, Hn, Hq, Hk |- *.
  assert (Hlast : forall x, (out ++ [x]) !! length g = Some x).
  { intros x. by rewrite lookup_app_r, Hk, Nat.sub_diag by lia. }
  destruct ev as [c|e i|i]; cbn [event_step pr_seen]; [by rewrite Hlast| |by rewrite Hlast].
  destruct (lawful_last _ _ i Hl1 eq_refl) as [Hi Hd].
  destruct (lookup_lt_is_Some_2 (made g) i Hi) as [c Hc].
  destruct (lookup_lt_is_Some_2 qs i) as [o Ho]; [lia|].
  pose proof (Hq i c o Hc Ho) as Hslot. unfold slot_ok in Hslot. rewrite Hd in Hslot.
  destruct Hslot as (q & -> & Hslot). rewrite Ho.
  destruct (was_polled i g).
  - destruct (poll_spent e s0 q Hslot) as (q' & -> & _). cbn [pr_seen]. by rewrite Hlast.
  - subst q. destruct (poll_new e s0 c) as (q' & _ & ->). cbn [pr_seen]. rewrite Hlast, Hc. cbn.
    by destruct (mem_call e s0 c) as [s1 []].
Qed.

(** Requests that are only made, or made and dropped, change nothing. *)
Lemma c75_unpolled (h : list event) (s : store) :
  Forall (fun ev => match ev with EPoll _ _ => False | _ => True end) h ->
  pr_store (events h s) = s.
Proof.
  intros H. unfold events. generalize (@nil (option request)) (@nil seen).
  induction H as [|ev h Hev _ IH]; intros qs out; [done|]. cbn [fold_left].
  destruct ev; [apply IH|done|apply IH].
Qed.
