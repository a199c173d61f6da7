(** Proofs about subscriptions (C45, C46, C61). *)
From Verif Require Import Bytes BytesFacts PubSub LibSpec.
From stdpp Require Import gmap list.
From Coq Require Import NArith Lia.
From Coq Require Import ZifyBool ZifyNat ZifyN.

Lemma ps_after_snoc h o : ps_after (h ++ [o]) = ps_do (ps_after h) o.
Proof. unfold ps_after. by rewrite fold_left_app. Qed.

Lemma snoc_split {A} (h h1 h2 : list A) o x :
  h ++ [o] = h1 ++ x :: h2 ->
  (h2 = [] /\ h1 = h /\ x = o) \/ (exists h2', h2 = h2' ++ [o] /\ h = h1 ++ x :: h2').
Proof.
  destruct h2 as [|y h2 _] using rev_ind.
  - intros [-> [= ->]]%app_inj_tail. by left.
  - rewrite app_comm_cons, app_assoc. intros [-> [= ->]]%app_inj_tail. right. by eexists.
Qed.

(** ** What the session's map holds *)

Lemma subscribed_nil k s : ~ subscribed [] k s.
Proof. intros (h1 & h2 & H & _). by destruct h1. Qed.

Lemma subscribed_snoc h o k s :
  subscribed (h ++ [o]) k s <->
  o = PSubscribe k s \/ (subscribed h k s /\ ~ ends_subscription o k s).
Proof.
  split.
  - intros (h1 & h2 & Hh & Hf).
    destruct (snoc_split _ _ _ _ _ Hh) as [(-> & -> & ->)|(h2' & -> & ->)]; [by left|].
    right. apply Forall_app in Hf as [Hf Ho]. rewrite Forall_singleton in Ho. split; [by exists h1, h2'|done].
  - intros [->|[(h1 & h2 & -> & Hf) Ho]].
    + exists h, []. by split.
    + exists h1, (h2 ++ [o]). rewrite <-app_assoc. split; [done|].
      apply Forall_app. split; [done|by apply Forall_singleton].
Qed.

Lemma ps_get_subscribe p k s k' s' :
  is_Some (ps_get (ps_subscribe p k s).1 k' s') <->
  (k = k' /\ s = s') \/ is_Some (ps_get p k' s').
Proof.
  unfold ps_subscribe, ps_get. destruct (default ∅ (ps_sessions p !! s) !! k) as [x|] eqn:Hx; cbn.
  - destruct (decide (s = s')) as [<-|Hne].
    + rewrite lookup_insert. destruct (ps_sessions p !! s) as [m|]; cbn in *; [|done].
      split; [by auto|]. intros [[<- _]|]; [by rewrite Hx|done].
    + rewrite lookup_insert_ne by done. naive_solver.
  - assert (H : is_Some (match (<[s := <[k := ps_fresh p]> (default ∅ (ps_sessions p !! s))]>
        (ps_sessions p)) !! s' with Some m => m !! k' | None => None end) <->
      (k = k' /\ s = s') \/ is_Some match ps_sessions p !! s' with Some m => m !! k' | None => None end).
    { destruct (decide (s = s')) as [<-|Hne].
      - rewrite lookup_insert. destruct (decide (k = k')) as [<-|Hne].
        + rewrite lookup_insert. naive_solver.
        + rewrite lookup_insert_ne by done. destruct (ps_sessions p !! s) as [m|]; cbn.
          * naive_solver.
          * rewrite lookup_empty. naive_solver.
      - rewrite lookup_insert_ne by done. naive_solver. }
    destruct (ps_keys p !! k); cbn; exact H.
Qed.

Lemma ps_get_unsubscribe p k s k' s' :
  is_Some (ps_get (ps_unsubscribe p k s).1 k' s') <->
  is_Some (ps_get p k' s') /\ ~ (k = k' /\ s = s').
Proof.
  unfold ps_unsubscribe, ps_get.
  destruct (match ps_keys p !! k with Some _ => _ | None => _ end) as [ks b].
  destruct (ps_sessions p !! s) as [m|] eqn:Hm; cbn.
  - destruct (decide (s = s')) as [<-|Hne].
    + rewrite lookup_insert, Hm. destruct (decide (k = k')) as [<-|Hne].
      * rewrite lookup_delete. split; [by intros [? ?]|]. intros [_ H]. by destruct H.
      * rewrite lookup_delete_ne by done. naive_solver.
    + rewrite lookup_insert_ne by done. naive_solver.
  - split; [|by intros [? _]]. intros H. split; [done|]. intros [_ <-]. rewrite Hm in H.
    by destruct H.
Qed.

Lemma ps_get_remove p s k' s' :
  is_Some (ps_get (ps_remove_session p s).1 k' s') <-> is_Some (ps_get p k' s') /\ s <> s'.
Proof.
  unfold ps_remove_session, ps_get. destruct (ps_sessions p !! s) as [m|] eqn:Hm; cbn.
  - destruct (decide (s = s')) as [<-|Hne].
    + rewrite lookup_delete. split; [by intros [? ?]|by intros [_ ?]].
    + rewrite lookup_delete_ne by done. naive_solver.
  - split; [|by intros [? _]]. intros H. split; [done|]. intros <-. rewrite Hm in H.
    by destruct H.
Qed.

Lemma c45_get h k s : is_Some (ps_get (ps_after h) k s) <-> subscribed h k s.
Proof.
  induction h as [|o h IH] using rev_ind.
  { split; [|by intros ?%subscribed_nil]. unfold ps_after, ps_get. cbn. rewrite lookup_empty.
    by intros [? ?]. }
  rewrite ps_after_snoc, subscribed_snoc, <-IH. unfold ends_subscription.
  destruct o as [k' s'|k' s'|s']; cbn [ps_do].
  - rewrite ps_get_subscribe. split; [intros [[-> ->]|]; [by left|right; naive_solver]|].
    naive_solver.
  - rewrite ps_get_unsubscribe. split.
    + intros [H Hn]. right. split; [done|]. intros [[= -> ->]|?]; [by apply Hn|done].
    + intros [?|[H Hn]]; [done|]. split; [done|]. intros [-> ->]. apply Hn. by left.
  - rewrite ps_get_remove. split.
    + intros [H Hn]. right. split; [done|]. intros [?|[= ->]]; done.
    + intros [?|[H Hn]]; [done|]. split; [done|]. intros ->. apply Hn. by right.
Qed.

(** ** The index by key *)

Lemma ever_snoc h o k :
  ever_subscribed (h ++ [o]) k <-> ever_subscribed h k \/ exists s, o = PSubscribe k s.
Proof.
  unfold ever_subscribed. split.
  - intros [s [H|H%elem_of_list_singleton]%elem_of_app]; [by left; eexists|right; by eexists].
  - intros [[s H]|[s ->]]; exists s; apply elem_of_app; [by left|right].
    by apply elem_of_list_singleton.
Qed.

Lemma subscribed_ever h k s : subscribed h k s -> ever_subscribed h k.
Proof. intros (h1 & h2 & -> & _). exists s. set_solver. Qed.

Lemma subscribe_session p k s :
  match ps_sessions p !! s with Some m => m !! k | None => None end =
  default ∅ (ps_sessions p !! s) !! k.
Proof. by destruct (ps_sessions p !! s); cbn; rewrite ?lookup_empty. Qed.

(** The key's set is there as soon as a session has subscribed. *)
Lemma ps_keys_ever h k : is_Some (ps_keys (ps_after h) !! k) <-> ever_subscribed h k.
Proof.
  induction h as [|o h IH] using rev_ind.
  { cbn. rewrite lookup_empty. split; [by intros [? ?]|]. intros [s ?]. by apply elem_of_nil in H. }
  rewrite ps_after_snoc, ever_snoc, <-IH.
  destruct o as [k' s'|k' s'|s']; cbn [ps_do].
  - pose proof (c45_get h k' s') as Hg. unfold ps_get in Hg. rewrite subscribe_session in Hg.
    unfold ps_subscribe. destruct (default ∅ _ !! k') as [x|] eqn:Hx.
    + cbn. split; [by auto|]. intros [?|[s [= -> ->]]]; [done|].
      rewrite IH. eapply subscribed_ever. apply Hg. by eexists.
    + cbn. destruct (ps_keys (ps_after h) !! k') as [y|] eqn:Hy; cbn.
      * split; [by auto|]. intros [?|[s [= -> ->]]]; [done|]. by rewrite Hy.
      * destruct (decide (k = k')) as [->|Hne].
        -- rewrite lookup_insert. split; [intros _; right; by eexists|by eexists].
        -- rewrite lookup_insert_ne by done. split; [by auto|]. intros [?|[s [= -> ->]]]; done.
  - unfold ps_unsubscribe.
    destruct (match ps_sessions _ !! _ with Some _ => _ | None => _ end) as [ss b].
    destruct (ps_keys (ps_after h) !! k') as [y|] eqn:Hy; cbn.
    + destruct (decide (k = k')) as [->|Hne].
      * rewrite lookup_insert, Hy. split; [|by intros _; eexists]. intros _. left. by eexists.
      * rewrite lookup_insert_ne by done. naive_solver.
    + naive_solver.
  - unfold ps_remove_session. destruct (ps_sessions _ !! _); cbn; naive_solver.
Qed.

Lemma c45_subscribe h k s :
  match (ps_subscribe (ps_after h) k s).2 with
  | Some sub => ~ ever_subscribed h k /\
                ps_get (ps_subscribe (ps_after h) k s).1 k s = Some sub
  | None => ever_subscribed h k
  end.
Proof.
  pose proof (c45_get h k s) as Hg. unfold ps_get in Hg. rewrite subscribe_session in Hg.
  pose proof (ps_keys_ever h k) as He.
  unfold ps_subscribe. destruct (default ∅ _ !! k) as [x|] eqn:Hx.
  - cbn. eapply subscribed_ever. apply Hg. by eexists.
  - cbn. destruct (ps_keys (ps_after h) !! k) as [y|] eqn:Hy; cbn.
    + apply He. by eexists.
    + split; [|unfold ps_get; cbn; by rewrite lookup_insert, lookup_insert].
      rewrite <-He. by intros [? ?].
Qed.

Lemma first_snoc h o k s :
  first_and_kept (h ++ [o]) k s <->
  (o = PSubscribe k s /\ ~ ever_subscribed h k) \/
  (first_and_kept h k s /\ o <> PUnsubscribe k s).
Proof.
  split.
  - intros (h1 & h2 & Hh & He & Hu).
    destruct (snoc_split _ _ _ _ _ Hh) as [(-> & -> & ->)|(h2' & -> & ->)]; [by left|].
    right. split; [exists h1, h2'; set_solver|]. intros ->. set_solver.
  - intros [[-> He]|[(h1 & h2 & -> & He & Hu) Ho]].
    + exists h, []. split_and!; [done|done|]. apply not_elem_of_nil.
    + exists h1, (h2 ++ [o]). rewrite <-app_assoc. split_and!; [done|done|].
      rewrite elem_of_app, elem_of_list_singleton. naive_solver.
Qed.

Lemma first_ever h k s : first_and_kept h k s -> ever_subscribed h k.
Proof. intros (h1 & h2 & -> & _). exists s. set_solver. Qed.

Lemma c46_recorded h k s : s ∈ recorded (ps_after h) k <-> first_and_kept h k s.
Proof.
  unfold recorded. induction h as [|o h IH] using rev_ind.
  { cbn. rewrite lookup_empty. cbn. split; [set_solver|]. intros (h1 & h2 & H & _). by destruct h1. }
  rewrite ps_after_snoc, first_snoc, <-IH.
  pose proof (ps_keys_ever h) as He.
  destruct o as [k' s'|k' s'|s']; cbn [ps_do].
  - pose proof (c45_get h k' s') as Hg. unfold ps_get in Hg. rewrite subscribe_session in Hg.
    unfold ps_subscribe. destruct (default ∅ _ !! k') as [x|] eqn:Hx.
    + cbn. split; [by auto|]. intros [[[= -> ->] Hn]|[? _]]; [|done].
      destruct Hn. eapply subscribed_ever. apply Hg. by eexists.
    + cbn. destruct (ps_keys (ps_after h) !! k') as [y|] eqn:Hy; cbn.
      * split; [by auto|]. intros [[[= -> ->] Hn]|[? _]]; [|done].
        destruct Hn. apply He. by eexists.
      * destruct (decide (k = k')) as [->|Hne].
        -- rewrite lookup_insert, Hy. cbn. rewrite elem_of_singleton. split.
           ++ intros ->. left. split; [done|]. rewrite <-He, Hy. by intros [? ?].
           ++ intros [[[= ->] _]|[H _]]; [done|set_solver].
        -- rewrite lookup_insert_ne by done. split; [by auto|].
           intros [[[= -> ->] _]|[? _]]; done.
  - unfold ps_unsubscribe.
    destruct (match ps_sessions _ !! _ with Some _ => _ | None => _ end) as [ss b].
    destruct (ps_keys (ps_after h) !! k') as [y|] eqn:Hy; cbn.
    + destruct (decide (k = k')) as [->|Hne].
      * rewrite lookup_insert, Hy. cbn. rewrite elem_of_difference, elem_of_singleton. split.
        -- intros [H1 H2]. right. split; [done|]. congruence.
        -- intros [[? _]|[H1 H2]]; [done|]. split; [done|]. congruence.
      * rewrite lookup_insert_ne by done. split; [|naive_solver].
        intros H. right. split; [done|]. congruence.
    + split; [|naive_solver]. intros H. right. split; [done|]. intros [= -> ->].
      rewrite Hy in H. set_solver.
  - unfold ps_remove_session. destruct (ps_sessions _ !! _); cbn; naive_solver.
Qed.

Lemma c45_unsubscribe h k s :
  (ps_unsubscribe (ps_after h) k s).2 = true <-> subscribed h k s \/ first_and_kept h k s.
Proof.
  rewrite <-c45_get, <-c46_recorded. unfold ps_unsubscribe, recorded, ps_get.
  destruct (ps_keys (ps_after h) !! k) as [y|], (ps_sessions (ps_after h) !! s) as [m|]; cbn.
  - rewrite orb_true_iff, bool_decide_eq_true.
    destruct (m !! k); split; try naive_solver. intros [[? ?]|?]; naive_solver.
  - rewrite orb_false_r, bool_decide_eq_true. split; [by auto|]. intros [[? ?]|?]; done.
  - destruct (m !! k); split; try naive_solver; intros [[? ?]|?]; set_solver.
  - split; [done|]. intros [[? ?]|?]; set_solver.
Qed.

(** ** Closed subscriptions *)

Definition ps_inv (p : pubsub) : Prop :=
  (forall k s sub, ps_get p k s = Some sub -> (sub < ps_fresh p)%N) /\
  (forall sub, sub ∈ ps_closed p -> (sub < ps_fresh p)%N) /\
  (forall k s k' s' sub, ps_get p k s = Some sub -> ps_get p k' s' = Some sub ->
     k = k' /\ s = s') /\
  (forall k s sub, ps_get p k s = Some sub -> sub ∉ ps_closed p).

Lemma ps_get_subscribe_eq p k s k' s' :
  ps_get (ps_subscribe p k s).1 k' s' =
  if decide (k = k' /\ s = s')
  then match ps_get p k s with Some sub => Some sub | None => Some (ps_fresh p) end
  else ps_get p k' s'.
Proof.
  unfold ps_subscribe, ps_get. rewrite <-subscribe_session.
  destruct (match ps_sessions p !! s with Some m => m !! k | None => None end) as [x|] eqn:Hx; cbn.
  - destruct (decide (s = s')) as [<-|Hne].
    + rewrite lookup_insert. destruct (ps_sessions p !! s) as [m|]; cbn in *; [|done].
      destruct (decide _) as [[<- _]|]; done.
    + rewrite lookup_insert_ne by done. rewrite decide_False by naive_solver. done.
  - assert (H : match (<[s := <[k := ps_fresh p]> (default ∅ (ps_sessions p !! s))]>
        (ps_sessions p)) !! s' with Some m => m !! k' | None => None end =
      if decide (k = k' /\ s = s') then Some (ps_fresh p)
      else match ps_sessions p !! s' with Some m => m !! k' | None => None end).
    { destruct (decide (s = s')) as [<-|Hne].
      - rewrite lookup_insert. destruct (decide (k = k')) as [<-|Hne].
        + rewrite lookup_insert, decide_True by done. done.
        + rewrite lookup_insert_ne by done. rewrite decide_False by naive_solver.
          destruct (ps_sessions p !! s) as [m|]; cbn; [done|]. by rewrite lookup_empty.
      - rewrite lookup_insert_ne by done. rewrite decide_False by naive_solver. done. }
    destruct (ps_keys p !! k); cbn; exact H.
Qed.

Lemma ps_get_unsubscribe_eq p k s k' s' :
  ps_get (ps_unsubscribe p k s).1 k' s' =
  if decide (k = k' /\ s = s') then None else ps_get p k' s'.
Proof.
  unfold ps_unsubscribe, ps_get.
  destruct (match ps_keys p !! k with Some _ => _ | None => _ end) as [ks b].
  destruct (ps_sessions p !! s) as [m|] eqn:Hm; cbn.
  - destruct (decide (s = s')) as [<-|Hne].
    + rewrite lookup_insert, Hm. destruct (decide (k = k')) as [<-|Hne].
      * by rewrite lookup_delete, decide_True.
      * rewrite lookup_delete_ne by done. by rewrite decide_False by naive_solver.
    + rewrite lookup_insert_ne by done. by rewrite decide_False by naive_solver.
  - destruct (decide _) as [[-> ->]|]; [|done]. by rewrite Hm.
Qed.

Lemma ps_get_remove_eq p s k' s' :
  ps_get (ps_remove_session p s).1 k' s' = if decide (s = s') then None else ps_get p k' s'.
Proof.
  unfold ps_remove_session, ps_get. destruct (ps_sessions p !! s) as [m|] eqn:Hm; cbn.
  - destruct (decide (s = s')) as [<-|Hne]; [by rewrite lookup_delete|].
    by rewrite lookup_delete_ne.
  - destruct (decide _) as [<-|]; [|done]. by rewrite Hm.
Qed.

Lemma ps_remove_closed p s sub :
  sub ∈ ps_closed (ps_remove_session p s).1 <->
  sub ∈ ps_closed p \/ exists k, ps_get p k s = Some sub.
Proof.
  unfold ps_remove_session, ps_get. destruct (ps_sessions p !! s) as [m|]; cbn.
  - rewrite elem_of_union, elem_of_list_to_set, elem_of_list_fmap. split.
    + intros [?|([k x] & -> & Hx%elem_of_map_to_list)]; [by left|]. right. by exists k.
    + intros [?|[k Hk]]; [by left|]. right. exists (k, sub). split; [done|].
      by apply elem_of_map_to_list.
  - naive_solver.
Qed.

Lemma ps_fresh_do p o : (ps_fresh p <= ps_fresh (ps_do p o))%N.
Proof.
  destruct o as [k s|k s|s]; cbn.
  - unfold ps_subscribe. destruct (_ !! k); cbn; [lia|]. destruct (ps_keys p !! k); cbn; lia.
  - unfold ps_unsubscribe. repeat case_match; cbn; lia.
  - unfold ps_remove_session. case_match; cbn; lia.
Qed.

Lemma ps_inv_do p o : ps_inv p -> ps_inv (ps_do p o).
Proof.
  intros (H1 & H2 & H3 & H4). pose proof (ps_fresh_do p o) as Hf.
  destruct o as [k s|k s|s]; cbn [ps_do] in *.
  - assert (Hc : ps_closed (ps_subscribe p k s).1 = ps_closed p).
    { unfold ps_subscribe. destruct (_ !! k); cbn; [done|]. by destruct (ps_keys p !! k). }
    assert (Hfr : ps_get p k s = None -> ps_fresh (ps_subscribe p k s).1 = (ps_fresh p + 1)%N).
    { unfold ps_subscribe, ps_get. rewrite subscribe_session. intros ->. cbn. destruct (ps_keys p !! k); cbn; lia. }
    assert (Hg : forall k' s' sub, ps_get (ps_subscribe p k s).1 k' s' = Some sub ->
      ps_get p k' s' = Some sub \/
      (k = k' /\ s = s' /\ sub = ps_fresh p /\ ps_get p k s = None)).
    { intros k' s' sub. rewrite ps_get_subscribe_eq. destruct (decide _) as [[<- <-]|]; [|by left].
      destruct (ps_get p k s) as [x|]; [by left|]. intros [= <-]. by right. }
    split_and!.
    + intros k' s' sub [Hs|(<- & <- & -> & Hn)]%Hg; [apply H1 in Hs; lia|]. rewrite Hfr by done. lia.
    + rewrite Hc. intros sub Hs%H2. lia.
    + intros k1 s1 k2 s2 sub [Ha|(<- & <- & -> & Hn)]%Hg [Hb|(<- & <- & Hs & Hn')]%Hg; [by eapply H3| | |done].
      * apply H1 in Ha. lia.
      * apply H1 in Hb. lia.
    + rewrite Hc. intros k' s' sub [Hs|(<- & <- & -> & Hn)]%Hg; [by eapply H4|].
      intros Hs%H2. lia.
  - assert (Hc : ps_closed (ps_unsubscribe p k s).1 = ps_closed p).
    { unfold ps_unsubscribe. by repeat case_match. }
    assert (Hg : forall k' s' sub, ps_get (ps_unsubscribe p k s).1 k' s' = Some sub ->
      ps_get p k' s' = Some sub).
    { intros k' s' sub. rewrite ps_get_unsubscribe_eq. by destruct (decide _). }
    split_and!.
    + intros k' s' sub Hs%Hg%H1. lia.
    + rewrite Hc. intros sub Hs%H2. lia.
    + intros k1 s1 k2 s2 sub Ha%Hg Hb%Hg. by eapply H3.
    + rewrite Hc. intros k' s' sub Hs%Hg. by eapply H4.
  - assert (Hg : forall k' s' sub, ps_get (ps_remove_session p s).1 k' s' = Some sub ->
      ps_get p k' s' = Some sub /\ s <> s').
    { intros k' s' sub. rewrite ps_get_remove_eq. by destruct (decide _). }
    split_and!.
    + intros k' s' sub [Hs%H1 _]%Hg. lia.
    + intros sub [Hs%H2|[k Hs%H1]]%ps_remove_closed; lia.
    + intros k1 s1 k2 s2 sub [Ha _]%Hg [Hb _]%Hg. by eapply H3.
    + intros k' s' sub [Hs Hne]%Hg [Hc|[k Hk]]%ps_remove_closed; [by eapply H4|].
      destruct (H3 _ _ _ _ _ Hk Hs). done.
Qed.

Lemma ps_inv_after h : ps_inv (ps_after h).
Proof.
  induction h as [|o h IH] using rev_ind.
  - split_and!; unfold ps_after, ps_get; cbn.
    + intros k s sub. by rewrite lookup_empty.
    + set_solver.
    + intros k s k' s' sub. by rewrite lookup_empty.
    + intros k s sub. by rewrite lookup_empty.
  - rewrite ps_after_snoc. by apply ps_inv_do.
Qed.

Lemma c61_closes h s k sub :
  ps_get (ps_after h) k s = Some sub ->
  let p := (ps_remove_session (ps_after h) s).1 in
  sub ∈ ps_closed p /\ ps_get p k s = None.
Proof.
  intros Hs p. split.
  - apply ps_remove_closed. right. by exists k.
  - subst p. by rewrite ps_get_remove_eq, decide_True.
Qed.

Lemma c61_exactly h s :
  let p := (ps_remove_session (ps_after h) s).1 in
  (forall sub, sub ∈ ps_closed p <->
     sub ∈ ps_closed (ps_after h) \/ exists k, ps_get (ps_after h) k s = Some sub) /\
  (forall k s', s' <> s -> ps_get p k s' = ps_get (ps_after h) k s').
Proof.
  intros p. split.
  - intros sub. apply ps_remove_closed.
  - intros k s' Hne. subst p. by rewrite ps_get_remove_eq, decide_False.
Qed.

Lemma c61_open h k s sub : ps_get (ps_after h) k s = Some sub -> sub ∉ ps_closed (ps_after h).
Proof. apply (ps_inv_after h). Qed.

Lemma c61_own h k s k' s' sub :
  ps_get (ps_after h) k s = Some sub -> ps_get (ps_after h) k' s' = Some sub -> k = k' /\ s = s'.
Proof. apply (ps_inv_after h). Qed.

(** ** What removing a session reports *)

Lemma entered_snoc h o s :
  entered (h ++ [o]) s <-> (exists k, o = PSubscribe k s) \/ (entered h s /\ o <> PRemoveSession s).
Proof.
  split.
  - intros (h1 & k & h2 & Hh & Hu).
    destruct (snoc_split _ _ _ _ _ Hh) as [(-> & -> & <-)|(h2' & -> & ->)]; [left; by eexists|].
    right. split; [exists h1, k, h2'; set_solver|]. intros ->. set_solver.
  - intros [[k ->]|[(h1 & k & h2 & -> & Hu) Ho]].
    + exists h, k, []. split; [done|]. apply not_elem_of_nil.
    + exists h1, k, (h2 ++ [o]). rewrite <-app_assoc. split; [done|].
      rewrite elem_of_app, elem_of_list_singleton. naive_solver.
Qed.

Lemma c62_reports h s : (ps_remove_session (ps_after h) s).2 = true <-> entered h s.
Proof.
  assert (H : is_Some (ps_sessions (ps_after h) !! s) <-> entered h s).
  { induction h as [|o h IH] using rev_ind.
    { cbn. rewrite lookup_empty. split; [by intros [? ?]|]. intros (h1 & k & h2 & H & _).
      by destruct h1. }
    rewrite ps_after_snoc, entered_snoc, <-IH.
    destruct o as [k' s'|k' s'|s']; cbn [ps_do].
    - assert (Hs : is_Some (ps_sessions (ps_subscribe (ps_after h) k' s').1 !! s) <->
        s = s' \/ is_Some (ps_sessions (ps_after h) !! s)).
      { destruct (decide (s = s')) as [->|Hne].
        - split; [by auto|]. intros _. unfold ps_subscribe. destruct (_ !! k'); cbn.
          + by rewrite lookup_insert.
          + destruct (ps_keys _ !! k'); cbn; by rewrite lookup_insert.
        - unfold ps_subscribe. destruct (default _ _ !! k'); cbn.
          + rewrite lookup_insert_ne by done. naive_solver.
          + destruct (ps_keys _ !! k'); cbn; rewrite lookup_insert_ne by done; naive_solver. }
      rewrite Hs. naive_solver.
    - unfold ps_unsubscribe.
      destruct (match ps_keys _ !! k' with Some _ => _ | None => _ end) as [ks b].
      destruct (ps_sessions (ps_after h) !! s') as [m|] eqn:Hm; cbn; [|naive_solver].
      destruct (decide (s = s')) as [->|Hne].
      + rewrite lookup_insert, Hm. naive_solver.
      + rewrite lookup_insert_ne by done. naive_solver.
    - unfold ps_remove_session. destruct (ps_sessions (ps_after h) !! s') as [m|] eqn:Hm; cbn.
      + destruct (decide (s = s')) as [->|Hne].
        * rewrite lookup_delete. split; [by intros [? ?]|]. naive_solver.
        * rewrite lookup_delete_ne by done. naive_solver.
      + split; [|naive_solver]. intros Hx. right. split; [done|]. intros [= ->].
        rewrite Hm in Hx. by destruct Hx. }
  rewrite <-H. unfold ps_remove_session. destruct (ps_sessions _ !! _); cbn.
  - split; [by eexists|done].
  - split; [done|by intros [? ?]].
Qed.
