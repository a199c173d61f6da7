(** Proofs about handles of subscriptions (C106). *)
From Verif Require Import Bytes BytesFacts PubSub LibSpec PubSubFacts SubHandles HandleSpec.
From stdpp Require Import gmap list.
From Coq Require Import NArith ZArith Lia.
From Coq Require Import ZifyBool ZifyNat ZifyN.

Lemma took_inv h e r x' : took_place (h ++ [(e, r)]) x' ->
  exists x, took_place h x /\ sub_step x e = Some (x', r).
Proof.
  intros H. remember (h ++ [(e, r)]) as l eqn:E. destruct H as [|h0 x e0 x' r0 Ht Hs].
  - by destruct h.
  - apply app_inj_tail in E as [-> [= -> ->]]. eauto.
Qed.

Lemma took_nil x : took_place [] x -> x = subs_new.
Proof.
  intros H. remember [] as l eqn:E. destruct H; [done|]. by destruct h.
Qed.

Lemma took_fun h x y : took_place h x -> took_place h y -> x = y.
Proof.
  intros H. revert y. induction H as [|h x e x' r _ IH Hs]; intros y Hy.
  - symmetry. by apply took_nil.
  - apply took_inv in Hy as (x0 & Hx0 & Hs'). rewrite <-(IH _ Hx0), Hs in Hs'. congruence.
Qed.

Lemma times_snoc f h a : times f (h ++ [a]) = (times f h + if f a then 1 else 0)%Z.
Proof. induction h as [|b h IH]; cbn; [lia|]. rewrite IH. lia. Qed.

Lemma on_record_get x k s w : on_record x k s w <-> ps_get (u_ps x) k s = Some w.
Proof.
  unfold on_record. destruct x as [p a rx tx sh]. cbn. split.
  - intros [x' [= _ ->]]. done.
  - intros ->. by eexists.
Qed.

Lemma was_closed_snoc h x e r w : took_place h x ->
  was_closed (h ++ [(e, r)]) w <->
  was_closed h w \/ e = UClose w \/ exists s k, e = URemoveSession s /\ ps_get (u_ps x) k s = Some w.
Proof.
  intros Ht. unfold was_closed. split.
  - intros [[r' Hin]|(h1 & s & r' & h2 & x1 & k & E & Ht1 & Hg)].
    + apply elem_of_app in Hin as [Hin|Hin]; [left; left; by exists r'|].
      apply elem_of_list_singleton in Hin as [= <- <-]. right. by left.
    + apply snoc_split in E as [(-> & -> & [= <- <-])|(h2' & -> & ->)].
      * right. right. exists s, k. split; [done|]. rewrite (took_fun _ _ _ Ht Ht1). by apply on_record_get.
      * left. right. by exists h1, s, r', h2', x1, k.
  - intros [[[r' Hin]|(h1 & s & r' & h2 & x1 & k & -> & Ht1 & Hg)]|[->|(s & k & -> & Hg)]].
    + left. exists r'. apply elem_of_app. by left.
    + right. exists h1, s, r', (h2 ++ [(e, r)]), x1, k. by rewrite <-app_assoc.
    + left. exists r. apply elem_of_app. right. by apply elem_of_list_singleton.
    + right. exists h, s, r, [], x, k. split; [done|]. split; [done|]. by apply on_record_get.
Qed.

Lemma given_snoc h e r w : given (h ++ [(e, r)]) w <-> given h w \/ r = UHandle (Some w).
Proof.
  unfold given. split.
  - intros [e' Hin]. apply elem_of_app in Hin as [Hin|Hin]; [left; by exists e'|].
    apply elem_of_list_singleton in Hin as [= _ <-]. by right.
  - intros [[e' Hin]| ->].
    + exists e'. apply elem_of_app. by left.
    + exists e. apply elem_of_app. right. by apply elem_of_list_singleton.
Qed.

Lemma registered_get p w : registered p w = true <-> exists k s, ps_get p k s = Some w.
Proof.
  unfold registered, ps_get. rewrite existsb_exists. split.
  - intros ([s m] & Hin & Hw). apply bool_decide_eq_true in Hw.
    apply elem_of_list_In, elem_of_map_to_list in Hin.
    apply elem_of_list_fmap in Hw as ([k v] & -> & Hv). apply elem_of_map_to_list in Hv.
    exists k, s. by rewrite Hin.
  - intros (k & s & Hg). destruct (ps_sessions p !! s) as [m|] eqn:Hm; [|done].
    exists (s, m). split; [by apply elem_of_list_In, elem_of_map_to_list|].
    apply bool_decide_eq_true, elem_of_list_fmap. exists (k, w). split; [done|].
    by apply elem_of_map_to_list.
Qed.

Lemma registered_ext p p' w :
  (forall k s, ps_get p' k s = Some w <-> ps_get p k s = Some w) -> registered p' w = registered p w.
Proof.
  intros H. apply eq_true_iff_eq. rewrite !registered_get. split; intros (k & s & Hg); exists k, s; by apply H.
Qed.

(** ** Closing *)

Lemma tally_insert m w v n : tally (<[w := n]> m) v = if decide (w = v) then n else tally m v.
Proof.
  unfold tally. destruct (decide (w = v)) as [<-|Hne]; [by rewrite lookup_insert|].
  by rewrite lookup_insert_ne.
Qed.

Definition dying (x : subs) (w : N) : bool :=
  negb (strong x w) && ((tally (u_rx x) w =? 0) || (tally (u_tx x) w =? 0))%N.

Definition alike_but (x y : subs) : Prop :=
  u_ps y = u_ps x /\ u_arcs y = u_arcs x /\ u_rx y = u_rx x /\ u_tx y = u_tx x.

Lemma dying_alike x y w : alike_but x y -> dying y w = dying x w.
Proof. intros (H1 & H2 & H3 & H4). unfold dying, strong. by rewrite H1, H2, H3, H4. Qed.

Lemma close_alike x w : alike_but x (close x w).
Proof. by destruct x. Qed.

Lemma shut_close x v w : shut (close x v) w = shut x w || bool_decide (v = w).
Proof.
  unfold shut, close. cbn. apply eq_true_iff_eq. rewrite !orb_true_iff, !bool_decide_eq_true.
  rewrite elem_of_union, elem_of_singleton. intuition congruence.
Qed.

Lemma arc_dropped_alike x w : alike_but x (arc_dropped x w).
Proof.
  unfold arc_dropped. destruct (strong x w); [by destruct x|].
  destruct (_ || _); [apply close_alike|by destruct x].
Qed.

Lemma shut_arc_dropped x v w :
  shut (arc_dropped x v) w = shut x w || (bool_decide (v = w) && dying x w).
Proof.
  unfold arc_dropped, dying. destruct (decide (v = w)) as [<-|Hne].
  - rewrite bool_decide_true by done. destruct (strong x v); cbn; [by rewrite orb_false_r|].
    destruct (_ || _); [|by rewrite orb_false_r]. by rewrite shut_close, bool_decide_true.
  - rewrite bool_decide_false by done. cbn. rewrite orb_false_r.
    destruct (strong x v); [done|]. destruct (_ || _); [|done].
    by rewrite shut_close, bool_decide_false, orb_false_r.
Qed.

Lemma fold_dropped ws : forall x, alike_but x (fold_left arc_dropped ws x) /\
  forall w, shut (fold_left arc_dropped ws x) w = shut x w || (bool_decide (w ∈ ws) && dying x w).
Proof.
  induction ws as [|v ws IH]; intros x; cbn [fold_left].
  - split; [done|]. intros w. rewrite bool_decide_false; [by rewrite orb_false_r|]. apply not_elem_of_nil.
  - destruct (IH (arc_dropped x v)) as [Ha Hs].
    pose proof (arc_dropped_alike x v) as Hb. split.
    + destruct Ha as (? & ? & ? & ?), Hb as (? & ? & ? & ?). split_and!; congruence.
    + intros w. rewrite Hs, shut_arc_dropped, (dying_alike _ _ w Hb).
      rewrite <-orb_assoc, <-andb_orb_distrib_l. do 2 f_equal.
      apply eq_true_iff_eq. rewrite orb_true_iff, !bool_decide_eq_true, elem_of_cons.
      intuition congruence.
Qed.

(** ** The invariant *)

Definition counts_ok (h : sub_history) (x : subs) : Prop :=
  forall w, Z.of_N (tally (u_arcs x) w) = upgraded h w /\
    Z.of_N (tally (u_rx x) w) = receivers h w /\ Z.of_N (tally (u_tx x) w) = senders h w.

Definition old_only (h : sub_history) (x : subs) : Prop :=
  forall w, tally (u_arcs x) w <> 0%N \/ tally (u_rx x) w <> 0%N \/ tally (u_tx x) w <> 0%N \/
    shut x w = true \/ was_closed h w \/ given h w -> (w < ps_fresh (u_ps x))%N.

Definition shut_ok (h : sub_history) (x : subs) : Prop :=
  forall w, (w < ps_fresh (u_ps x))%N -> shut x w = true <-> was_closed h w \/ dying x w = true.

Lemma strong_iff x w : strong x w = true <->
  (exists k s, ps_get (u_ps x) k s = Some w) \/ tally (u_arcs x) w <> 0%N.
Proof. unfold strong. rewrite orb_true_iff, registered_get. split; intros [?|?]; (by left) || (right; lia). Qed.

Lemma strong_alike x y w : alike_but x y -> strong y w = strong x w.
Proof. intros (H1 & H2 & H3 & H4). unfold strong. by rewrite H1, H2. Qed.

(** What one action does to one subscription. *)
Definition cnt_after (n : N) (up down : bool) : Z :=
  (Z.of_N n + (if up then 1 else 0) - (if down then 1 else 0))%Z.

Lemma step_counts x e x' r w : sub_step x e = Some (x', r) ->
  Z.of_N (tally (u_arcs x') w) = cnt_after (tally (u_arcs x) w)
    match (e, r) with (UUpgrade v, UTold true) => N.eqb v w | _ => false end
    match (e, r) with (UDrop v, _) => N.eqb v w | _ => false end /\
  Z.of_N (tally (u_rx x') w) = cnt_after (tally (u_rx x) w)
    match (e, r) with (UReceiver v, _) => N.eqb v w | _ => false end
    match (e, r) with (UDropReceiver v, _) => N.eqb v w | _ => false end /\
  Z.of_N (tally (u_tx x') w) = cnt_after (tally (u_tx x) w)
    match (e, r) with (USender v, _) => N.eqb v w | _ => false end
    match (e, r) with (UDropSender v, _) => N.eqb v w | _ => false end.
Proof.
  destruct x as [p a rx tx sh]. unfold cnt_after.
  destruct e as [k s|k s|k s|s|v|v|v|v|v|v|v|v|v]; cbn [sub_step].
  - intros [= <- <-]. cbn. lia.
  - destruct (ps_subscribe p k s) as [p' o]. intros [= <- <-]. cbn. lia.
  - destruct (ps_unsubscribe p k s) as [p' b]. intros [= <- <-].
    destruct (ps_get p k s) as [v|]; [|cbn; lia].
    destruct (arc_dropped_alike (Subs p' a rx tx sh) v) as (_ & -> & -> & ->). cbn. lia.
  - destruct (ps_remove_session p s) as [p' b]. intros [= <- <-].
    set (ws := match ps_sessions p !! s with Some m => _ | None => _ end).
    destruct (fold_dropped ws (Subs p' a rx tx sh)) as [(_ & -> & -> & ->) _]. cbn. lia.
  - destruct (strong _ v); intros [= <- <-]; cbn [u_arcs u_rx u_tx]; rewrite ?tally_insert;
      try (case_decide; subst); rewrite ?N.eqb_refl; try rewrite (proj2 (N.eqb_neq v w)) by done; lia.
  - destruct (tally a v =? 0)%N eqn:E; [done|]. intros [= <- <-].
    destruct (arc_dropped_alike (Subs p (<[v := (tally a v - 1)%N]> a) rx tx sh) v) as (_ & -> & -> & ->).
    cbn [u_arcs u_rx u_tx]. rewrite tally_insert.
    case_decide; subst; rewrite ?N.eqb_refl; try rewrite (proj2 (N.eqb_neq v w)) by done; lia.
  - destruct (tally a v =? 0)%N eqn:E; [done|]. intros [= <- <-]. cbn. lia.
  - destruct (tally a v =? 0)%N eqn:E; [done|]. intros [= <- <-]. cbn [u_arcs u_rx u_tx].
    rewrite tally_insert.
    case_decide; subst; rewrite ?N.eqb_refl; try rewrite (proj2 (N.eqb_neq v w)) by done; lia.
  - destruct (tally a v =? 0)%N eqn:E; [done|]. intros [= <- <-]. cbn [u_arcs u_rx u_tx].
    rewrite tally_insert.
    case_decide; subst; rewrite ?N.eqb_refl; try rewrite (proj2 (N.eqb_neq v w)) by done; lia.
  - destruct (tally rx v =? 0)%N eqn:E; [done|]. intros [= <- <-].
    destruct (_ && _); cbn [u_arcs u_rx u_tx close]; rewrite tally_insert;
    (case_decide; subst; rewrite ?N.eqb_refl; try rewrite (proj2 (N.eqb_neq v w)) by done; lia).
  - destruct (tally tx v =? 0)%N eqn:E; [done|]. intros [= <- <-].
    destruct (_ && _); cbn [u_arcs u_rx u_tx close]; rewrite tally_insert;
    (case_decide; subst; rewrite ?N.eqb_refl; try rewrite (proj2 (N.eqb_neq v w)) by done; lia).
  - destruct (tally rx v =? 0)%N eqn:E; [done|]. intros [= <- <-]. cbn. lia.
  - destruct (tally tx v =? 0)%N eqn:E; [done|]. intros [= <- <-]. cbn. lia.
Qed.

(** What the manager does in an action. *)
Definition manager_op (e : sub_event) : option ps_op :=
  match e with
  | USubscribe k s => Some (PSubscribe k s)
  | UUnsubscribe k s => Some (PUnsubscribe k s)
  | URemoveSession s => Some (PRemoveSession s)
  | _ => None
  end.

Lemma step_manager x e x' r : sub_step x e = Some (x', r) ->
  u_ps x' = match manager_op e with Some o => ps_do (u_ps x) o | None => u_ps x end.
Proof.
  destruct x as [p a rx tx sh].
  destruct e as [k s|k s|k s|s|v|v|v|v|v|v|v|v|v]; cbn [sub_step manager_op ps_do u_ps].
  - by intros [= <- <-].
  - destruct (ps_subscribe p k s) as [p' o]. by intros [= <- <-].
  - destruct (ps_unsubscribe p k s) as [p' b]. intros [= <- <-].
    destruct (ps_get p k s) as [v|]; [|done].
    by destruct (arc_dropped_alike (Subs p' a rx tx sh) v) as (-> & _).
  - destruct (ps_remove_session p s) as [p' b]. intros [= <- <-].
    set (ws := match ps_sessions p !! s with Some m => _ | None => _ end).
    by destruct (fold_dropped ws (Subs p' a rx tx sh)) as [(-> & _) _].
  - destruct (strong _ v); by intros [= <- <-].
  - destruct (tally a v =? 0)%N; [done|]. intros [= <- <-].
    by destruct (arc_dropped_alike (Subs p (<[v := (tally a v - 1)%N]> a) rx tx sh) v) as (-> & _).
  - destruct (tally a v =? 0)%N; [done|]. by intros [= <- <-].
  - destruct (tally a v =? 0)%N; [done|]. by intros [= <- <-].
  - destruct (tally a v =? 0)%N; [done|]. by intros [= <- <-].
  - destruct (tally rx v =? 0)%N; [done|]. intros [= <- <-]. by destruct (_ && _).
  - destruct (tally tx v =? 0)%N; [done|]. intros [= <- <-]. by destruct (_ && _).
  - destruct (tally rx v =? 0)%N; [done|]. by intros [= <- <-].
  - destruct (tally tx v =? 0)%N; [done|]. by intros [= <- <-].
Qed.

Lemma step_fresh x e x' r : sub_step x e = Some (x', r) ->
  (ps_fresh (u_ps x) <= ps_fresh (u_ps x'))%N.
Proof.
  intros Hs. rewrite (step_manager _ _ _ _ Hs). destruct (manager_op e); [apply ps_fresh_do|lia].
Qed.

(** Only new subscriptions get on record. *)
Lemma step_on_record x e x' r k s w : sub_step x e = Some (x', r) ->
  ps_get (u_ps x') k s = Some w -> (w < ps_fresh (u_ps x))%N -> ps_get (u_ps x) k s = Some w.
Proof.
  intros Hs. rewrite (step_manager _ _ _ _ Hs). destruct (manager_op e) as [o|]; [|done].
  destruct o as [k' s'|k' s'|s']; cbn [ps_do].
  - rewrite ps_get_subscribe_eq. destruct (decide _) as [[<- <-]|]; [|done].
    destruct (ps_get _ k' s'); [done|]. intros [= <-]. lia.
  - rewrite ps_get_unsubscribe_eq. by destruct (decide _).
  - rewrite ps_get_remove_eq. by destruct (decide _).
Qed.

Lemma old_new_counts x e x' r w : sub_step x e = Some (x', r) ->
  tally (u_arcs x') w <> 0%N \/ tally (u_rx x') w <> 0%N \/ tally (u_tx x') w <> 0%N ->
  strong x w = true \/ tally (u_rx x) w <> 0%N \/ tally (u_tx x) w <> 0%N.
Proof.
  intros Hs H. pose proof (step_counts _ _ _ _ w Hs) as (H1 & H2 & H3). unfold cnt_after in *.
  destruct (strong x w) eqn:E; [by left|right].
  assert (Ha : tally (u_arcs x) w = 0%N).
  { destruct (decide (tally (u_arcs x) w = 0%N)); [done|].
    assert (strong x w = true) by (apply strong_iff; by right). congruence. }
  rewrite Ha in H1. destruct x as [p a rx tx sh]. cbn [u_arcs u_rx u_tx] in *.
  destruct e as [k s|k s|k s|s|v|v|v|v|v|v|v|v|v]; cbn [sub_step] in Hs; try lia.
  - destruct (strong (Subs p a rx tx sh) v) eqn:Ev; injection Hs as <- <-; cbn [u_arcs u_rx u_tx] in *; [|lia].
    destruct (N.eqb_spec v w) as [->|]; [congruence|lia].
  - destruct (tally a v =? 0)%N eqn:Ev; [done|]. destruct (N.eqb_spec v w) as [->|]; [lia|].
    cbn in *. lia.
  - destruct (tally a v =? 0)%N eqn:Ev; [done|]. destruct (N.eqb_spec v w) as [->|]; [lia|].
    cbn in *. lia.
  - destruct (tally a v =? 0)%N eqn:Ev; [done|]. destruct (N.eqb_spec v w) as [->|]; [lia|].
    cbn in *. lia.
  - destruct (tally rx v =? 0)%N eqn:Ev; [done|]. destruct (N.eqb_spec v w) as [->|]; cbn in *; lia.
  - destruct (tally tx v =? 0)%N eqn:Ev; [done|]. destruct (N.eqb_spec v w) as [->|]; cbn in *; lia.
Qed.

Definition all_ok (h : sub_history) (x : subs) : Prop :=
  ps_inv (u_ps x) /\ counts_ok h x /\ old_only h x /\ shut_ok h x.

(** Gone is gone. *)
Lemma step_gone x e x' r w : sub_step x e = Some (x', r) -> (w < ps_fresh (u_ps x))%N ->
  strong x w = false -> strong x' w = false.
Proof.
  intros Hs Hw Hn. destruct (strong x' w) eqn:E; [|done]. exfalso.
  apply strong_iff in E as [(k & s & Hg)|Ha].
  - assert (strong x w = true); [|congruence]. apply strong_iff. left. exists k, s.
    by eapply step_on_record.
  - pose proof (step_counts _ _ _ _ w Hs) as (H1 & _). unfold cnt_after in *.
    assert (Ha' : tally (u_arcs x) w = 0%N).
    { destruct (decide (tally (u_arcs x) w = 0%N)); [done|].
      assert (strong x w = true) by (apply strong_iff; by right). congruence. }
    rewrite Ha' in H1. destruct x as [p a rx tx sh].
    destruct e as [k s|k s|k s|s|v|v|v|v|v|v|v|v|v]; cbn [sub_step] in Hs; try lia.
    + destruct (strong (Subs p a rx tx sh) v) eqn:Ev; injection Hs as <- <-;
        cbn [u_arcs u_rx u_tx] in *; [|lia]. destruct (N.eqb_spec v w) as [->|]; [congruence|lia].
    + destruct (N.eqb v w); lia.
Qed.

Lemma dying_step x e x' r w : sub_step x e = Some (x', r) -> (w < ps_fresh (u_ps x))%N ->
  dying x w = true -> dying x' w = true.
Proof.
  intros Hs Hw Hd. unfold dying in *. apply andb_true_iff in Hd as [Hn Hz].
  apply negb_true_iff in Hn. rewrite (step_gone _ _ _ _ _ Hs Hw Hn). cbn.
  pose proof (step_counts _ _ _ _ w Hs) as (_ & H2 & H3). unfold cnt_after in *.
  assert (Ha' : tally (u_arcs x) w = 0%N).
  { destruct (decide (tally (u_arcs x) w = 0%N)); [done|].
    assert (strong x w = true) by (apply strong_iff; by right). congruence. }
  destruct x as [p a rx tx sh]. cbn [u_arcs u_rx u_tx] in *.
  destruct e as [k s|k s|k s|s|v|v|v|v|v|v|v|v|v]; cbn [sub_step] in Hs; try lia.
  - destruct (tally a v =? 0)%N eqn:Ev; [done|]. destruct (N.eqb_spec v w) as [->|]; [lia|]. cbn in *. lia.
  - destruct (tally a v =? 0)%N eqn:Ev; [done|]. destruct (N.eqb_spec v w) as [->|]; [lia|]. cbn in *. lia.
  - destruct (N.eqb v w); lia.
  - destruct (N.eqb v w); lia.
Qed.

Definition closes (x : subs) (e : sub_event) (w : N) : Prop :=
  e = UClose w \/ exists s k, e = URemoveSession s /\ ps_get (u_ps x) k s = Some w.

Lemma subscribe_closed p k s : ps_closed (ps_subscribe p k s).1 = ps_closed p.
Proof. unfold ps_subscribe. destruct (_ !! k); cbn; [done|]. by destruct (ps_keys p !! k). Qed.
Lemma unsubscribe_closed p k s : ps_closed (ps_unsubscribe p k s).1 = ps_closed p.
Proof. unfold ps_unsubscribe. by repeat case_match. Qed.

Lemma shut_cong p a rx tx sh p' a' rx' tx' w : (w ∈ ps_closed p' <-> w ∈ ps_closed p) ->
  shut (Subs p' a' rx' tx' sh) w = shut (Subs p a rx tx sh) w.
Proof.
  intros H. unfold shut. cbn. f_equal. by apply bool_decide_ext.
Qed.

Lemma dying_cong p a rx tx sh p' a' rx' tx' sh' w :
  (registered p' w = registered p w) -> tally a' w = tally a w -> tally rx' w = tally rx w ->
  tally tx' w = tally tx w ->
  dying (Subs p' a' rx' tx' sh') w = dying (Subs p a rx tx sh) w.
Proof. intros H1 H2 H3 H4. unfold dying, strong. cbn. by rewrite H1, H2, H3, H4. Qed.

Lemma step_shut x e x' r w : sub_step x e = Some (x', r) -> ps_inv (u_ps x) ->
  (w < ps_fresh (u_ps x))%N ->
  (shut x w = true -> shut x' w = true) /\
  (shut x' w = true -> shut x w = true \/ dying x' w = true \/ closes x e w) /\
  (closes x e w -> shut x' w = true) /\
  (dying x' w = true -> dying x w = true \/ shut x' w = true).
Proof.
  intros Hs Hinv Hw. pose proof Hinv as (_ & _ & Huniq & _). unfold closes.
  destruct x as [p a rx tx sh]. cbn [u_ps] in *.
  destruct e as [k s|k s|k s|s|v|v|v|v|v|v|v|v|v]; cbn [sub_step] in Hs.
  - injection Hs as <- <-. split_and!; [auto..| |auto]. intros [?|(? & ? & ? & _)]; done.
  - destruct (ps_subscribe p k s) as [p' o] eqn:Ep. injection Hs as <- <-.
    assert (Ep' : p' = (ps_subscribe p k s).1) by by rewrite Ep.
    assert (E1 : shut (Subs p' a rx tx sh) w = shut (Subs p a rx tx sh) w).
    { apply shut_cong. by rewrite Ep', subscribe_closed. }
    assert (E2 : dying (Subs p' a rx tx sh) w = dying (Subs p a rx tx sh) w).
    { apply dying_cong; [|done..]. apply registered_ext. intros k' s'. rewrite Ep', ps_get_subscribe_eq.
      destruct (decide _) as [[<- <-]|]; [|done]. destruct (ps_get p k s); [done|].
      split; [|done]. intros [= <-]. lia. }
    rewrite E1, E2. split_and!; [auto..| |auto]. intros [?|(? & ? & ? & _)]; done.
  - destruct (ps_unsubscribe p k s) as [p' b] eqn:Ep. injection Hs as <- <-.
    assert (Ep' : p' = (ps_unsubscribe p k s).1) by by rewrite Ep.
    assert (E1 : shut (Subs p' a rx tx sh) w = shut (Subs p a rx tx sh) w).
    { apply shut_cong. by rewrite Ep', unsubscribe_closed. }
    assert (E2 : ps_get p k s <> Some w ->
      dying (Subs p' a rx tx sh) w = dying (Subs p a rx tx sh) w).
    { intros Hne. apply dying_cong; [|done..]. apply registered_ext. intros k' s'.
      rewrite Ep', ps_get_unsubscribe_eq. destruct (decide _) as [[<- <-]|]; done. }
    destruct (ps_get p k s) as [v|] eqn:Hg.
    + pose proof (arc_dropped_alike (Subs p' a rx tx sh) v) as Hal.
      rewrite (dying_alike _ _ w Hal), shut_arc_dropped, E1.
      destruct (decide (v = w)) as [->|Hne].
      * rewrite bool_decide_true by done. cbn [andb]. rewrite orb_true_iff. split_and!; [auto| | |auto].
        { intros [?|?]; auto. }
        { intros [?|(? & ? & ? & _)]; done. }
      * rewrite bool_decide_false by done. cbn [andb]. rewrite orb_false_r, E2 by congruence.
        split_and!; [auto..| |auto]. intros [?|(? & ? & ? & _)]; done.
    + rewrite E1, E2 by done. split_and!; [auto..| |auto]. intros [?|(? & ? & ? & _)]; done.
  - destruct (ps_remove_session p s) as [p' b] eqn:Ep. injection Hs as <- <-.
    assert (Ep' : p' = (ps_remove_session p s).1) by by rewrite Ep.
    set (ws := match ps_sessions p !! s with Some m => _ | None => _ end).
    destruct (fold_dropped ws (Subs p' a rx tx sh)) as [Hal Hsh].
    rewrite (dying_alike _ _ w Hal), Hsh.
    assert (Hmem : w ∈ ws <-> exists k, ps_get p k s = Some w).
    { unfold ws, ps_get. destruct (ps_sessions p !! s) as [m|].
      - rewrite elem_of_list_fmap. split.
        + intros ([k x] & -> & Hx%elem_of_map_to_list). by exists k.
        + intros [k Hk]. exists (k, w). split; [done|]. by apply elem_of_map_to_list.
      - split; [by intros ?%elem_of_nil|by intros [? ?]]. }
    destruct (decide (w ∈ ws)) as [Hin|Hnin].
    + assert (Hshut : shut (Subs p' a rx tx sh) w = true).
      { unfold shut. cbn. apply orb_true_iff. left. apply bool_decide_eq_true. rewrite Ep'.
        apply ps_remove_closed. right. by apply Hmem. }
      rewrite Hshut. cbn [orb]. split_and!; [auto| |auto|auto].
      intros _. right. right. right. apply Hmem in Hin as [k Hk]. by exists s, k.
    + rewrite bool_decide_false by done. cbn [andb]. rewrite orb_false_r.
      assert (E1 : shut (Subs p' a rx tx sh) w = shut (Subs p a rx tx sh) w).
      { apply shut_cong. rewrite Ep', ps_remove_closed. split; [|by left].
        intros [?|Hk]; [done|]. by apply Hmem in Hk. }
      assert (E2 : dying (Subs p' a rx tx sh) w = dying (Subs p a rx tx sh) w).
      { apply dying_cong; [|done..]. apply registered_ext. intros k' s'.
        rewrite Ep', ps_get_remove_eq. destruct (decide _) as [<-|]; [|done].
        split; [done|]. intros Hk. destruct Hnin. apply Hmem. by exists k'. }
      rewrite E1, E2. split_and!; [auto..| |auto].
      intros [?|(s' & k' & [= <-] & Hk)]; [done|]. destruct Hnin. apply Hmem. by exists k'.
  - destruct (strong (Subs p a rx tx sh) v) eqn:Hv; injection Hs as <- <-.
    + assert (E1 : shut (Subs p (<[v := (tally a v + 1)%N]> a) rx tx sh) w = shut (Subs p a rx tx sh) w)
      by by apply shut_cong.
    rewrite E1. split_and!; [auto| | |].
      * auto.
      * intros [?|(? & ? & ? & _)]; done.
      * unfold dying. intros [Hn Hz]%andb_true_iff. apply negb_true_iff in Hn.
        destruct (strong (Subs p a rx tx sh) w) eqn:Hsw; [|left; exact Hz].
        assert (H : strong (Subs p (<[v := (tally a v + 1)%N]> a) rx tx sh) w = true); [|congruence].
        apply strong_iff. apply strong_iff in Hsw as [?|Hsw]; [by left|right]. cbn in *.
        rewrite tally_insert. case_decide; [lia|done].
    + split_and!; [auto..| |auto]. intros [?|(? & ? & ? & _)]; done.
  - destruct (tally a v =? 0)%N eqn:Ev; [done|]. injection Hs as <- <-.
    set (y := Subs p (<[v := (tally a v - 1)%N]> a) rx tx sh).
    pose proof (arc_dropped_alike y v) as Hal.
    rewrite (dying_alike _ _ w Hal), shut_arc_dropped.
    assert (E1 : shut y w = shut (Subs p a rx tx sh) w) by by apply shut_cong.
    rewrite E1. destruct (decide (v = w)) as [->|Hne].
    + rewrite bool_decide_true by done. cbn [andb]. rewrite orb_true_iff. split_and!; [auto| | |auto].
      { intros [?|?]; auto. }
      { intros [?|(? & ? & ? & _)]; done. }
    + rewrite bool_decide_false by done. cbn [andb]. rewrite orb_false_r.
      assert (E2 : dying (Subs p (<[v := (tally a v - 1)%N]> a) rx tx sh) w = dying (Subs p a rx tx sh) w)
        by (apply dying_cong; try done; by rewrite tally_insert, decide_False). unfold y; rewrite E2.
      split_and!; [auto..| |auto]. intros [?|(? & ? & ? & _)]; done.
  - destruct (tally a v =? 0)%N eqn:Ev; [done|]. injection Hs as <- <-.
    rewrite shut_close, (dying_alike _ _ w (close_alike _ v)), orb_true_iff, bool_decide_eq_true.
    split_and!; [auto| | |auto].
    + intros [?| ->]; auto.
    + intros [[= ->]|(? & ? & ? & _)]; [by right|done].
  - destruct (tally a v =? 0)%N eqn:Ev; [done|]. injection Hs as <- <-.
    assert (E1 : shut (Subs p a (<[v := (tally rx v + 1)%N]> rx) tx sh) w = shut (Subs p a rx tx sh) w)
      by by apply shut_cong.
    rewrite E1. split_and!; [auto..| |].
    { intros [?|(? & ? & ? & _)]; done. }
    destruct (decide (v = w)) as [->|Hne].
    + intros [Hn _]%andb_true_iff. apply negb_true_iff in Hn.
      assert (H : strong (Subs p a (<[w := (tally rx w + 1)%N]> rx) tx sh) w = true); [|congruence].
      apply strong_iff. right. cbn. lia.
    + assert (E2 : dying (Subs p a (<[v := (tally rx v + 1)%N]> rx) tx sh) w = dying (Subs p a rx tx sh) w)
        by (apply dying_cong; try done; by rewrite tally_insert, decide_False). rewrite E2. auto.
  - destruct (tally a v =? 0)%N eqn:Ev; [done|]. injection Hs as <- <-.
    assert (E1 : shut (Subs p a rx (<[v := (tally tx v + 1)%N]> tx) sh) w = shut (Subs p a rx tx sh) w)
      by by apply shut_cong.
    rewrite E1. split_and!; [auto..| |].
    { intros [?|(? & ? & ? & _)]; done. }
    destruct (decide (v = w)) as [->|Hne].
    + intros [Hn _]%andb_true_iff. apply negb_true_iff in Hn.
      assert (H : strong (Subs p a rx (<[w := (tally tx w + 1)%N]> tx) sh) w = true); [|congruence].
      apply strong_iff. right. cbn. lia.
    + assert (E2 : dying (Subs p a rx (<[v := (tally tx v + 1)%N]> tx) sh) w = dying (Subs p a rx tx sh) w)
        by (apply dying_cong; try done; by rewrite tally_insert, decide_False). rewrite E2. auto.
  - destruct (tally rx v =? 0)%N eqn:Ev; [done|]. injection Hs as <- <-.
    set (y := Subs p a (<[v := (tally rx v - 1)%N]> rx) tx sh). cbn [u_rx y].
    assert (E1 : shut y w = shut (Subs p a rx tx sh) w) by by apply shut_cong.
    assert (E2 : v <> w -> dying y w = dying (Subs p a rx tx sh) w).
    { intros Hne. apply dying_cong; [done|done|by rewrite tally_insert, decide_False|done]. }
    assert (Hno : UDropReceiver v = UClose w \/ (exists s k, UDropReceiver v = URemoveSession s /\
      ps_get p k s = Some w) -> False) by (intros [?|(? & ? & ? & _)]; done).
    destruct (negb (strong y v) && _) eqn:Eb.
    + rewrite shut_close, (dying_alike _ _ w (close_alike _ v)), E1, orb_true_iff, bool_decide_eq_true.
      apply andb_true_iff in Eb as [Hn Hz].
      assert (Hd : v = w -> dying y w = true).
      { intros <-. unfold dying. rewrite Hn. cbn [u_rx y]. by rewrite Hz. }
      split_and!; [auto| | |].
      * intros [?|?]; auto.
      * by intros ?%Hno.
      * destruct (decide (v = w)); [auto|]. rewrite E2 by done. auto.
    + rewrite E1. split_and!; [auto..| |].
      * by intros ?%Hno.
      * destruct (decide (v = w)) as [<-|]; [|rewrite E2 by done; auto].
        intros [Hn Hz]%andb_true_iff. rewrite Hn in Eb. cbn [andb u_rx u_tx y] in Eb, Hz.
        rewrite Eb in Hz. left. unfold dying. cbn [u_rx u_tx]. apply andb_true_iff. split.
        { exact Hn. } cbn in Hz. by rewrite Hz, orb_true_r.
  - destruct (tally tx v =? 0)%N eqn:Ev; [done|]. injection Hs as <- <-.
    set (y := Subs p a rx (<[v := (tally tx v - 1)%N]> tx) sh). cbn [u_tx y].
    assert (E1 : shut y w = shut (Subs p a rx tx sh) w) by by apply shut_cong.
    assert (E2 : v <> w -> dying y w = dying (Subs p a rx tx sh) w).
    { intros Hne. apply dying_cong; [done|done|done|by rewrite tally_insert, decide_False]. }
    assert (Hno : UDropSender v = UClose w \/ (exists s k, UDropSender v = URemoveSession s /\
      ps_get p k s = Some w) -> False) by (intros [?|(? & ? & ? & _)]; done).
    destruct (negb (strong y v) && _) eqn:Eb.
    + rewrite shut_close, (dying_alike _ _ w (close_alike _ v)), E1, orb_true_iff, bool_decide_eq_true.
      apply andb_true_iff in Eb as [Hn Hz].
      assert (Hd : v = w -> dying y w = true).
      { intros <-. unfold dying. rewrite Hn. cbn [u_tx y]. rewrite Hz. by rewrite orb_true_r. }
      split_and!; [auto| | |].
      * intros [?|?]; auto.
      * by intros ?%Hno.
      * destruct (decide (v = w)); [auto|]. rewrite E2 by done. auto.
    + rewrite E1. split_and!; [auto..| |].
      * by intros ?%Hno.
      * destruct (decide (v = w)) as [<-|]; [|rewrite E2 by done; auto].
        intros [Hn Hz]%andb_true_iff. rewrite Hn in Eb. cbn [andb u_rx u_tx y] in Eb, Hz.
        rewrite Eb in Hz. left. unfold dying. cbn [u_rx u_tx]. apply andb_true_iff. split.
        { exact Hn. } rewrite orb_false_r in Hz. by rewrite Hz.
  - destruct (tally rx v =? 0)%N eqn:Ev; [done|]. injection Hs as <- <-.
    split_and!; [auto..| |auto]. intros [?|(? & ? & ? & _)]; done.
  - destruct (tally tx v =? 0)%N eqn:Ev; [done|]. injection Hs as <- <-.
    split_and!; [auto..| |auto]. intros [?|(? & ? & ? & _)]; done.
Qed.

Lemma all_ok_step h x e x' r : took_place h x -> all_ok h x -> sub_step x e = Some (x', r) ->
  all_ok (h ++ [(e, r)]) x'.
Proof.
  intros Ht (Hinv & Hc & Ho & Hsh) Hs. split_and!.
  - rewrite (step_manager _ _ _ _ Hs). destruct (manager_op e); [by apply ps_inv_do|done].
  - intros w. pose proof (step_counts _ _ _ _ w Hs) as (H1 & H2 & H3). destruct (Hc w) as (C1 & C2 & C3).
    unfold upgraded, receivers, senders in *. rewrite !times_snoc. unfold cnt_after in *. lia.
  - pose proof (step_fresh _ _ _ _ Hs) as Hf. intros w Hw.
    assert (Hold : (w < ps_fresh (u_ps x))%N -> (w < ps_fresh (u_ps x'))%N) by lia.
    assert (Hgs : forall p k s, ps_inv p -> ps_get p k s = Some w -> (w < ps_fresh p)%N).
    { intros p k s (H1 & _) Hg. by eapply H1. }
    assert (Hstr : strong x w = true -> (w < ps_fresh (u_ps x))%N).
    { intros [(k & s & Hg)|Ha]%strong_iff; [by eapply Hgs|]. apply Ho. by left. }
    assert (Hcnt : tally (u_arcs x') w <> 0%N \/ tally (u_rx x') w <> 0%N \/ tally (u_tx x') w <> 0%N ->
      (w < ps_fresh (u_ps x'))%N).
    { intros H. apply Hold. destruct (old_new_counts _ _ _ _ _ Hs H) as [?|?]; [by apply Hstr|].
      apply Ho. tauto. }
    assert (Hclo : was_closed (h ++ [(e, r)]) w -> (w < ps_fresh (u_ps x'))%N).
    { rewrite (was_closed_snoc _ _ _ _ _ Ht). intros [?|[->|(s & k & -> & Hg)]]; apply Hold.
      - apply Ho. tauto.
      - destruct x as [p a rx tx sh]. cbn [sub_step] in Hs.
        destruct (tally a w =? 0)%N eqn:E; [done|]. apply Ho. left. cbn. lia.
      - by eapply Hgs. }
    assert (Hgiv : given (h ++ [(e, r)]) w -> (w < ps_fresh (u_ps x'))%N).
    { rewrite given_snoc. intros [?| ->]; [apply Hold, Ho; tauto|].
      assert (Hinv' : ps_inv (u_ps x')).
      { rewrite (step_manager _ _ _ _ Hs). destruct (manager_op e); [by apply ps_inv_do|done]. }
      destruct x as [p a rx tx sh].
      destruct e as [k s|k s|k s|s|v|v|v|v|v|v|v|v|v]; cbn [sub_step] in Hs.
      - injection Hs as <- Hg. by eapply Hgs.
      - destruct (ps_subscribe p k s) as [p' o] eqn:Ep. injection Hs as <- ->. cbn.
        assert (Ep' : p' = (ps_subscribe p k s).1) by by rewrite Ep.
        unfold ps_subscribe in Ep. destruct (_ !! k) eqn:Ek; [discriminate Ep|].
        cbn [ps_keys] in Ep.
        destruct (ps_keys p !! k); [discriminate Ep|]. injection Ep as <- <-. cbn. lia.
      - by destruct (ps_unsubscribe p k s).
      - by destruct (ps_remove_session p s).
      - by destruct (strong _ v).
      - by destruct (tally a v =? 0)%N.
      - by destruct (tally a v =? 0)%N.
      - by destruct (tally a v =? 0)%N.
      - by destruct (tally a v =? 0)%N.
      - by destruct (tally rx v =? 0)%N.
      - by destruct (tally tx v =? 0)%N.
      - by destruct (tally rx v =? 0)%N.
      - by destruct (tally tx v =? 0)%N. }
    destruct Hw as [Hw|[Hw|[Hw|[Hw|[Hw|Hw]]]]]; [apply Hcnt; tauto..| |by apply Hclo|by apply Hgiv].
    destruct (decide (w < ps_fresh (u_ps x))%N) as [?|Hnew]; [by apply Hold|].
    destruct (decide (w < ps_fresh (u_ps x'))%N) as [?|Hnew']; [done|]. exfalso.
    (* nothing closes a subscription that does not exist *)
    assert (Hn0 : shut x w = false).
    { destruct (shut x w) eqn:E; [|done]. destruct Hnew. apply Ho. tauto. }
    assert (Hget : forall k s, ps_get (u_ps x) k s <> Some w).
    { intros k s Hg. destruct Hnew. by eapply Hgs. }
    assert (Hz : tally (u_arcs x) w = 0%N /\ tally (u_rx x) w = 0%N /\ tally (u_tx x) w = 0%N).
    { split_and!; match goal with |- ?t = _ => destruct (decide (t = 0%N)); [done|] end;
        destruct Hnew; apply Ho; tauto. }
    destruct Hz as (Z1 & Z2 & Z3). destruct x as [p a rx tx sh]. cbn [u_ps u_arcs u_rx u_tx] in *.
    destruct e as [k s|k s|k s|s|v|v|v|v|v|v|v|v|v]; cbn [sub_step] in Hs.
    + injection Hs as <- <-. congruence.
    + destruct (ps_subscribe p k s) as [p' o] eqn:Ep. injection Hs as <- <-.
      rewrite (shut_cong p a rx tx sh) in Hw; [congruence|].
      replace p' with (ps_subscribe p k s).1 by by rewrite Ep. by rewrite subscribe_closed.
    + destruct (ps_unsubscribe p k s) as [p' b] eqn:Ep. injection Hs as <- <-.
      assert (E1 : shut (Subs p' a rx tx sh) w = shut (Subs p a rx tx sh) w).
      { apply shut_cong. replace p' with (ps_unsubscribe p k s).1 by by rewrite Ep.
        by rewrite unsubscribe_closed. }
      destruct (ps_get p k s) as [v|] eqn:Hg; [|congruence].
      rewrite shut_arc_dropped, E1, Hn0 in Hw. cbn in Hw.
      apply andb_true_iff in Hw as [Hv _]. apply bool_decide_eq_true in Hv as ->. by eapply Hget.
    + destruct (ps_remove_session p s) as [p' b] eqn:Ep. injection Hs as <- <-.
      set (ws := match ps_sessions p !! s with Some m => _ | None => _ end) in *.
      destruct (fold_dropped ws (Subs p' a rx tx sh)) as [_ Hsh']. rewrite Hsh' in Hw.
      assert (Hnk : ~ exists k, ps_get p k s = Some w) by (intros [k Hk]; by eapply Hget).
      assert (E1 : shut (Subs p' a rx tx sh) w = shut (Subs p a rx tx sh) w).
      { apply shut_cong. replace p' with (ps_remove_session p s).1 by by rewrite Ep.
        rewrite ps_remove_closed. tauto. }
      rewrite E1, Hn0 in Hw. cbn in Hw. apply andb_true_iff in Hw as [Hw _].
      apply bool_decide_eq_true in Hw. destruct Hnk. unfold ws, ps_get in *.
      destruct (ps_sessions p !! s) as [m|]; [|by apply elem_of_nil in Hw].
      apply elem_of_list_fmap in Hw as ([k x] & -> & Hx%elem_of_map_to_list). by exists k.
    + destruct (strong _ v); injection Hs as <- <-; [|congruence].
      rewrite (shut_cong p a rx tx sh) in Hw; [congruence|done].
    + destruct (tally a v =? 0)%N eqn:Ev; [done|]. injection Hs as <- <-.
      rewrite shut_arc_dropped in Hw. rewrite (shut_cong p a rx tx sh) in Hw by done. rewrite Hn0 in Hw.
      cbn in Hw. apply andb_true_iff in Hw as [Hw _]. apply bool_decide_eq_true in Hw as ->. lia.
    + destruct (tally a v =? 0)%N eqn:Ev; [done|]. injection Hs as <- <-.
      rewrite shut_close, Hn0 in Hw. apply bool_decide_eq_true in Hw as ->. lia.
    + destruct (tally a v =? 0)%N eqn:Ev; [done|]. injection Hs as <- <-.
      rewrite (shut_cong p a rx tx sh) in Hw; [congruence|done].
    + destruct (tally a v =? 0)%N eqn:Ev; [done|]. injection Hs as <- <-.
      rewrite (shut_cong p a rx tx sh) in Hw; [congruence|done].
    + destruct (tally rx v =? 0)%N eqn:Ev; [done|]. injection Hs as <- <-.
      destruct (_ && _).
      * rewrite shut_close, (shut_cong p a rx tx sh), Hn0 in Hw by done.
        apply bool_decide_eq_true in Hw as ->. lia.
      * rewrite (shut_cong p a rx tx sh) in Hw; [congruence|done].
    + destruct (tally tx v =? 0)%N eqn:Ev; [done|]. injection Hs as <- <-.
      destruct (_ && _).
      * rewrite shut_close, (shut_cong p a rx tx sh), Hn0 in Hw by done.
        apply bool_decide_eq_true in Hw as ->. lia.
      * rewrite (shut_cong p a rx tx sh) in Hw; [congruence|done].
    + destruct (tally rx v =? 0)%N eqn:Ev; [done|]. injection Hs as <- <-. congruence.
    + destruct (tally tx v =? 0)%N eqn:Ev; [done|]. injection Hs as <- <-. congruence.
  - intros w Hw. rewrite (was_closed_snoc _ _ _ _ _ Ht).
    change (e = UClose w \/ (exists s k, e = URemoveSession s /\ ps_get (u_ps x) k s = Some w))
      with (closes x e w).
    destruct (decide (w < ps_fresh (u_ps x))%N) as [Hlt|Hnew].
    + destruct (step_shut _ _ _ _ w Hs Hinv Hlt) as (S1 & S2 & S3 & S4).
      pose proof (dying_step _ _ _ _ w Hs Hlt) as Hd. pose proof (Hsh w Hlt) as Hx. tauto.
    + (* a subscription made by this action *)
      assert (Hnc : ~ was_closed h w) by (intros ?; destruct Hnew; apply Ho; tauto).
      assert (Hn0 : shut x w = false).
      { destruct (shut x w) eqn:E; [|done]. destruct Hnew. apply Ho. tauto. }
      pose proof (step_manager _ _ _ _ Hs) as Hm.
      destruct (manager_op e) as [o|] eqn:Ho'; [|rewrite Hm in Hw; done].
      destruct e as [k s|k s|k s|s| | | | | | | | |]; try done; injection Ho' as <-; cbn [ps_do] in Hm.
      * destruct x as [p a rx tx sh]. cbn [sub_step u_ps] in *.
        destruct (ps_subscribe p k s) as [p' o] eqn:Ep. injection Hs as <- <-. cbn [u_ps fst] in *.
        assert (E1 : shut (Subs p' a rx tx sh) w = false).
        { rewrite (shut_cong p a rx tx sh); [done|].
          replace p' with (ps_subscribe p k s).1 by by rewrite Ep. by rewrite subscribe_closed. }
        assert (Hg : ps_get p' k s = Some w).
        { replace p' with (ps_subscribe p k s).1 by by rewrite Ep.
          rewrite ps_get_subscribe_eq, decide_True by done.
          unfold ps_subscribe in Ep. unfold ps_get. rewrite subscribe_session.
          destruct (default ∅ (ps_sessions p !! s) !! k).
          - injection Ep as <- <-. done.
          - f_equal. cbn [ps_keys] in Ep. destruct (ps_keys p !! k); injection Ep as <- <-; cbn in Hw; lia. }
        assert (E2 : dying (Subs p' a rx tx sh) w = false).
        { unfold dying. replace (strong (Subs p' a rx tx sh) w) with true; [done|]. symmetry.
          apply strong_iff. left. eauto. }
        rewrite E1, E2. split; [done|]. intros [[?|[?|(? & ? & ? & _)]]|?]; done.
      * exfalso. rewrite Hm in Hw. unfold ps_unsubscribe in Hw. repeat case_match; cbn in Hw; done.
      * exfalso. rewrite Hm in Hw. unfold ps_remove_session in Hw. case_match; cbn in Hw; done.
Qed.

Lemma all_ok_took h x : took_place h x -> all_ok h x.
Proof.
  induction 1 as [|h x e x' r Ht IH Hs]; [|by eapply all_ok_step].
  assert (Hnc : forall w, ~ was_closed [] w).
  { intros w [[r Hr]|(h1 & s & r & h2 & x & k & E & _)]; [by apply elem_of_nil in Hr|by destruct h1]. }
  split_and!.
  - apply (ps_inv_after []).
  - intros w. cbn. unfold tally. by rewrite lookup_empty.
  - intros w. cbn. unfold tally. rewrite lookup_empty. cbn.
    intros [?|[?|[?|[?|[H|[e H]]]]]]; try done; [by apply Hnc in H|by apply elem_of_nil in H].
  - intros w. cbn. lia.
Qed.

(** ** C106 *)

Lemma upgrades_strong x w : upgrades x w <-> strong x w = true.
Proof.
  unfold upgrades. destruct x as [p a rx tx sh]. cbn [sub_step].
  destruct (strong _ w); split; try done.
  - intros _. by eexists.
  - by intros [x' H].
Qed.

(** A handle gives its subscription while it is on record or somebody uses it. *)
Lemma c106_upgrade h x w : took_place h x ->
  upgrades x w <-> (exists k s, on_record x k s w) \/ (0 < upgraded h w)%Z.
Proof.
  intros Ht. destruct (all_ok_took _ _ Ht) as (_ & Hc & _). destruct (Hc w) as (C1 & _).
  rewrite upgrades_strong, strong_iff. split.
  - intros [(k & s & Hg)|Ha]; [left; exists k, s; by apply on_record_get|right; lia].
  - intros [(k & s & Hg)|Ha]; [left; exists k, s; by apply on_record_get|right; lia].
Qed.

(** It never comes back. *)
Lemma c106_never_back h h' x x' w : took_place h x -> given h w -> ~ upgrades x w ->
  took_place (h ++ h') x' -> ~ upgrades x' w.
Proof.
  intros Ht Hg Hn. revert x'. induction h' as [|[e r] h' IH] using rev_ind; intros x' Ht'.
  - rewrite app_nil_r in Ht'. by rewrite <-(took_fun _ _ _ Ht Ht').
  - rewrite app_assoc in Ht'. apply took_inv in Ht' as (y & Hy & Hs).
    specialize (IH _ Hy). rewrite upgrades_strong in *.
    apply not_true_iff_false. apply not_true_iff_false in IH.
    eapply step_gone; [exact Hs| |done].
    destruct (all_ok_took _ _ Hy) as (_ & _ & Ho & _). apply Ho. do 5 right.
    destruct Hg as [e' Hg]. exists e'. apply elem_of_app. by left.
Qed.

(** When a receiver is at its end. *)
Lemma c106_receive h x w x' r : took_place h x -> sub_step x (UReceive w) = Some (x', r) ->
  exists b, r = UEnded b /\
    (b = true <-> was_closed h w \/ (~ upgrades x w /\ senders h w = 0%Z)).
Proof.
  intros Ht Hs. destruct (all_ok_took _ _ Ht) as (_ & Hc & Ho & Hsh).
  destruct (Hc w) as (_ & C2 & C3).
  assert (Hrx : tally (u_rx x) w <> 0%N /\ r = UEnded (shut x w)).
  { destruct x as [p a rx tx sh]. cbn [sub_step] in Hs. cbn.
    destruct (tally rx w =? 0)%N eqn:E; [done|]. injection Hs as _ <-. split; [lia|done]. }
  destruct Hrx as [Hrx ->]. exists (shut x w). split; [done|]. assert (Hw : (w < ps_fresh (u_ps x))%N) by (apply Ho; tauto).
  pose proof (Hsh w Hw) as E. rewrite E, upgrades_strong, not_true_iff_false. unfold dying. rewrite andb_true_iff, negb_true_iff, orb_true_iff, !N.eqb_eq.
  split; intros [?|[? H]]; [by left|right; split; [done|]; lia|by left|right; split; [done|]; lia].
Qed.

(** When a sender is. *)
Lemma c106_send h x w x' r : took_place h x -> sub_step x (USend w) = Some (x', r) ->
  exists b, r = UEnded b /\
    (b = true <-> was_closed h w \/ (~ upgrades x w /\ receivers h w = 0%Z)).
Proof.
  intros Ht Hs. destruct (all_ok_took _ _ Ht) as (_ & Hc & Ho & Hsh).
  destruct (Hc w) as (_ & C2 & C3).
  assert (Htx : tally (u_tx x) w <> 0%N /\ r = UEnded (shut x w)).
  { destruct x as [p a rx tx sh]. cbn [sub_step] in Hs. cbn.
    destruct (tally tx w =? 0)%N eqn:E; [done|]. injection Hs as _ <-. split; [lia|done]. }
  destruct Htx as [Htx ->]. exists (shut x w). split; [done|]. assert (Hw : (w < ps_fresh (u_ps x))%N) by (apply Ho; tauto).
  pose proof (Hsh w Hw) as E. rewrite E, upgrades_strong, not_true_iff_false. unfold dying. rewrite andb_true_iff, negb_true_iff, orb_true_iff, !N.eqb_eq.
  split; intros [?|[? H]]; [by left|right; split; [done|]; lia|by left|right; split; [done|]; lia].
Qed.

(** The end is the end, for everybody. *)
Lemma c106_for_good h x w e e' x' r : took_place h x ->
  (e = UReceive w \/ e = USend w) -> (e, UEnded true) ∈ h ->
  (e' = UReceive w \/ e' = USend w) -> sub_step x e' = Some (x', r) -> r = UEnded true.
Proof.
  intros Ht He Hin He' Hs.
  assert (Hsh : shut x w = true).
  { clear Hs. induction Ht as [|h x e0 x0 r0 Ht IH Hs]; [by apply elem_of_nil in Hin|].
    destruct (all_ok_took _ _ Ht) as (Hinv & _ & Ho & _).
    assert (Hx : shut x w = true -> shut x0 w = true).
    { intros H. destruct (step_shut _ _ _ _ w Hs Hinv) as (S1 & _); [apply Ho; tauto|]. by apply S1. }
    apply elem_of_app in Hin as [Hin|Hin]; [by apply Hx, IH|].
    apply elem_of_list_singleton in Hin as [= <- <-].
    apply Hx. destruct x as [p a rx tx sh].
    destruct He as [->| ->]; cbn [sub_step] in Hs; (destruct (_ =? 0)%N; [done|]); congruence. }
  destruct x as [p a rx tx sh].
  destruct He' as [->| ->]; cbn [sub_step] in Hs; (destruct (_ =? 0)%N; [done|]); congruence.
Qed.

(** ** Examples *)

(** Doing these things, as far as they are possible. *)
Fixpoint play (es : list sub_event) (x : subs) (h : sub_history) : subs * sub_history :=
  match es with
  | [] => (x, h)
  | e :: es =>
    match sub_step x e with
    | Some (x', r) => play es x' (h ++ [(e, r)])
    | None => play es x h
    end
  end.

Lemma play_took es x h : took_place h x -> took_place (play es x h).2 (play es x h).1.
Proof.
  revert x h. induction es as [|e es IH]; intros x h Ht; [done|]. cbn.
  destruct (sub_step x e) as [[x' r]|] eqn:Hs; [|by apply IH]. apply IH. by econstructor.
Qed.
