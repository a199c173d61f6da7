(** Without unsubscribing, concurrent use of the subscriptions is linearizable, results included. *)
From Verif Require Import Bytes PubSub LibSpec PubSubFacts ConcPubSub ConcPubSubSpec ConcPubSubFacts.
From stdpp Require Import gmap list.
From Coq Require Import NArith Lia.

(** ** Locks exclude each other *)

Definition excl (sh : sharding) (ts : list ps_thread) : Prop :=
  forall i j t u a b, i <> j -> ts !! i = Some t -> ts !! j = Some u ->
    a ∈ holds sh t -> b ∈ holds sh u -> conflict a b = false.

Lemma act_holds sh t p t' p' a : ps_act t p = Some (t', p') -> a ∈ holds sh t' ->
  a ∈ holds sh t \/ wants sh t = Some a.
Proof.
  intros H Ha.
  destruct t as [k s|k s|k s|k s sub|k s r|k s|k s|k s b|k s b|s|s|[|z lc]|r]; cbn in H;
    repeat match goal with
    | H : match ?x with _ => _ end = Some _ |- _ => destruct x
    | H : Some _ = Some _ |- _ => injection H as <- <-
    end; try done; cbn in *; set_solver.
Qed.

Lemma conflict_sym a b : conflict a b = conflict b a.
Proof.
  unfold conflict. rewrite orb_comm. f_equal.
  apply bool_decide_ext. by split.
Qed.

Lemma granted_spec sh ts t a j u b : granted sh ts t = true -> wants sh t = Some a ->
  ts !! j = Some u -> b ∈ holds sh u -> conflict a b = false.
Proof.
  unfold granted. intros H Hw Hj Hb. rewrite Hw in H. rewrite forallb_forall in H.
  specialize (H u). rewrite <- elem_of_list_In in H.
  specialize (H (elem_of_list_lookup_2 _ _ _ Hj)). rewrite forallb_forall in H.
  specialize (H b). rewrite <- elem_of_list_In in H. specialize (H Hb).
  by destruct (conflict a b).
Qed.

Lemma excl_step sh ts p i y : excl sh ts -> ps_step sh i (ts, p) = Some y -> excl sh y.1.
Proof.
  intros He H. apply ps_step_inv in H as (t & t' & p' & Hi & Hg & Ha & ->). cbn.
  assert (Hlt : i < length ts) by (by eapply lookup_lt_Some).
  assert (Hmine : forall j u a b, j <> i -> ts !! j = Some u -> a ∈ holds sh t' -> b ∈ holds sh u ->
    conflict a b = false).
  { intros j u a b Hj Hu Hat Hb. destruct (act_holds sh t p t' p' a Ha Hat) as [Hh|Hw].
    - by apply (He i j t u).
    - by eapply granted_spec. }
  intros j1 j2 t1 t2 a b Hne H1 H2 Ha1 Hb2.
  destruct (decide (j1 = i)) as [->|H1i].
  - rewrite list_lookup_insert in H1 by done. injection H1 as <-.
    rewrite list_lookup_insert_ne in H2 by done. eapply (Hmine j2); done.
  - rewrite list_lookup_insert_ne in H1 by done.
    destruct (decide (j2 = i)) as [->|H2i].
    + rewrite list_lookup_insert in H2 by done. injection H2 as <-.
      rewrite conflict_sym. eapply (Hmine j1); done.
    + rewrite list_lookup_insert_ne in H2 by done. by eapply (He j1 j2).
Qed.

(** ** The order *)

Definition key_effect (p : pubsub) (t : ps_thread) : bool :=
  match t with
  | TGetting _ _ | TRemoving _ | TSubSession _ _ _ => true
  | TSubscribe k s => match ps_get p k s with Some _ => true | None => false end
  | _ => false
  end.
Fixpoint key_order (sh : sharding) (sched : list nat) (x : ps_pool) : list nat :=
  match sched with
  | [] => []
  | i :: r =>
    match ps_step sh i x with
    | None => []
    | Some y =>
      (if match x.1 !! i with Some t => key_effect x.2 t | None => false end then [i] else [])
        ++ key_order sh r y
    end
  end.
Lemma key_order_app sh s1 s2 x : key_order sh (s1 ++ s2) x =
  key_order sh s1 x ++ match ps_run sh s1 x with Some y => key_order sh s2 y | None => [] end.
Proof.
  revert x; induction s1 as [|i s1 IH]; intros x; cbn; [done|].
  destruct (ps_step sh i x) as [y|]; [|done]. by rewrite IH, app_assoc.
Qed.

Definition result_ok (calls : list ps_call) (l : list nat) (g : list N) (i : nat) (c : ps_call)
  (r : ps_result) : Prop :=
  exists p, l !! p = Some i /\ same_result g r (alone (ps_after (ops calls (take p l))) c).

Definition exact_ok (calls : list ps_call) (l : list nat) (g : list N) (i : nat) (c : ps_call)
  (t : ps_thread) : Prop :=
  match t with
  | TGet k s | TGetting k s => c = CallGet k s /\ i ∉ l
  | TSubscribe k s => c = CallSubscribe k s /\ i ∉ l
  | TSubSession k s sub => c = CallSubscribe k s /\ i ∉ l
  | TSubKey k s r => c = CallSubscribe k s /\ result_ok calls l g i c (RSubscribe r)
  | TUnsubscribe k s | TUnsubKey k s | TUnsubbed k s _ | TUnsubSession k s _ => False
  | TRemove s | TRemoving s => c = CallRemove s /\ i ∉ l
  | TClosing _ => (exists s, c = CallRemove s) /\ result_ok calls l g i c (RRemove true)
  | TReturned r => result_ok calls l g i c r
  end.

(** Subscriptions of one session: the concurrent ones and the sequential ones. *)
Definition same_subs (g : list N) (m M : gmap bytes N) : Prop := forall k, same_sub g (m !! k) (M !! k).

Record exact (sh : sharding) (calls : list ps_call) (l : list nat) (g : list N) (x : ps_pool)
  : Prop := Exact {
  ex_excl : excl sh x.1;
  ex_nodup : NoDup l;
  ex_len : length x.1 = length calls;
  ex_keys : ps_keys x.2 = ps_keys (ps_after (ops calls l));
  ex_fresh : N.to_nat (ps_fresh (ps_after (ops calls l))) = length g;
  ex_names : NoDup g;
  ex_old : Forall (fun a => (a < ps_fresh x.2)%N) g;
  ex_pending : forall i k s sub, x.1 !! i = Some (TSubSession k s sub) ->
    sub ∉ g /\ (sub < ps_fresh x.2)%N /\
    exists m, ps_sessions x.2 !! s = Some (<[k := sub]> m) /\
      m !! k = None /\
      same_subs g m (default ∅ (ps_sessions (ps_after (ops calls l)) !! s));
  ex_apart : forall i j k k' s s' sub, x.1 !! i = Some (TSubSession k s sub) ->
    x.1 !! j = Some (TSubSession k' s' sub) -> i = j;
  ex_sessions : forall s, (forall i k sub, x.1 !! i <> Some (TSubSession k s sub)) ->
    match ps_sessions x.2 !! s, ps_sessions (ps_after (ops calls l)) !! s with
    | None, None => True
    | Some m, Some M => same_subs g m M
    | _, _ => False
    end;
  ex_threads : forall i c t, calls !! i = Some c -> x.1 !! i = Some t -> exact_ok calls l g i c t }.

Lemma same_sub_grow g g' a b : same_sub g a b -> same_sub (g ++ g') a b.
Proof. destruct a, b; cbn; try done. intros. by apply lookup_app_l_Some. Qed.
Lemma same_subs_grow g g' m M : same_subs g m M -> same_subs (g ++ g') m M.
Proof. intros H k. apply same_sub_grow, H. Qed.
Lemma same_result_grow g g' r r' : same_result g r r' -> same_result (g ++ g') r r'.
Proof. destruct r, r'; cbn; try done; apply same_sub_grow. Qed.

Lemma result_ok_grow calls l l' g g' i c r :
  result_ok calls l g i c r -> result_ok calls (l ++ l') (g ++ g') i c r.
Proof.
  intros (p & Hp & Hr). exists p. pose proof (lookup_lt_Some _ _ _ Hp).
  split; [by apply lookup_app_l_Some|]. rewrite take_app_le by lia. by apply same_result_grow.
Qed.
Lemma exact_ok_grow calls l g g' i j c t : i <> j ->
  exact_ok calls l g i c t -> exact_ok calls (l ++ [j]) (g ++ g') i c t.
Proof.
  intros Hne.
  assert (H1 : i ∉ l -> i ∉ l ++ [j]).
  { intros H Hin. apply elem_of_app in Hin as [?|Hx%elem_of_list_singleton]; done. }
  destruct t; cbn; try done; first [apply result_ok_grow
    | intros [H3 H4]; split; [exact H3|]; first [by apply H1|by apply result_ok_grow]].
Qed.
Lemma result_new calls l g i c r : same_result g r (alone (ps_after (ops calls l)) c) ->
  result_ok calls (l ++ [i]) g i c r.
Proof.
  intros H. exists (length l). rewrite lookup_app_r, Nat.sub_diag by lia. by rewrite take_app.
Qed.

Definition pends (t : ps_thread) : bool := match t with TSubSession _ _ _ => true | _ => false end.

Lemma threads_silent calls l g (ts : list ps_thread) i t' c :
  (forall i c t, calls !! i = Some c -> ts !! i = Some t -> exact_ok calls l g i c t) ->
  calls !! i = Some c -> i < length ts -> exact_ok calls l g i c t' ->
  forall j cj tj, calls !! j = Some cj -> <[i := t']> ts !! j = Some tj -> exact_ok calls l g j cj tj.
Proof.
  intros Hth Hc Hlt Ht j cj tj Hcj Htj. destruct (decide (j = i)) as [->|Hne].
  - rewrite list_lookup_insert in Htj by done. by simplify_eq.
  - rewrite list_lookup_insert_ne in Htj by done. by eapply Hth.
Qed.
Lemma threads_effect calls l g g' (ts : list ps_thread) i t' c :
  (forall i c t, calls !! i = Some c -> ts !! i = Some t -> exact_ok calls l g i c t) ->
  calls !! i = Some c -> i < length ts -> exact_ok calls (l ++ [i]) (g ++ g') i c t' ->
  forall j cj tj, calls !! j = Some cj -> <[i := t']> ts !! j = Some tj ->
    exact_ok calls (l ++ [i]) (g ++ g') j cj tj.
Proof.
  intros Hth Hc Hlt Ht j cj tj Hcj Htj. destruct (decide (j = i)) as [->|Hne].
  - rewrite list_lookup_insert in Htj by done. by simplify_eq.
  - rewrite list_lookup_insert_ne in Htj by done. apply exact_ok_grow; [done|]. by eapply Hth.
Qed.

Lemma pending_insert (ts : list ps_thread) i t' j k s sub :
  pends t' = false -> <[i := t']> ts !! j = Some (TSubSession k s sub) ->
  ts !! j = Some (TSubSession k s sub) /\ j <> i.
Proof.
  intros Hp H. destruct (decide (j = i)) as [->|Hne].
  - destruct (decide (i < length ts)).
    + rewrite list_lookup_insert in H by done. injection H as ->. done.
    + rewrite list_insert_ge in H by lia. apply lookup_lt_Some in H. lia.
  - by rewrite list_lookup_insert_ne in H by done.
Qed.
Lemma pending_insert_ne (ts : list ps_thread) i t t' j k s sub :
  ts !! i = Some t -> pends t = false ->
  ts !! j = Some (TSubSession k s sub) -> <[i := t']> ts !! j = Some (TSubSession k s sub).
Proof.
  intros Hi Hp Hj. destruct (decide (j = i)) as [->|Hne].
  - rewrite Hi in Hj. injection Hj as ->. done.
  - by rewrite list_lookup_insert_ne by done.
Qed.

(** A step of a thread without a pending subscription that does not change the maps. *)
Lemma exact_quiet sh calls l g (ts : list ps_thread) p (i : nat) c t t' p' :
  exact sh calls l g (ts, p) -> excl sh (<[i := t']> ts) ->
  calls !! i = Some c -> ts !! i = Some t ->
  pends t = false -> pends t' = false ->
  ps_keys p' = ps_keys p -> ps_sessions p' = ps_sessions p -> ps_fresh p' = ps_fresh p ->
  exact_ok calls l g i c t' -> exact sh calls l g (<[i := t']> ts, p').
Proof.
  intros [He Hn Hlen Hk Hf Hg Ho Hp Ha Hs Hth] He' Hc Hi Ht Ht' Ek Es Ef Hok. cbn in *.
  assert (Hlt : i < length ts) by (by eapply lookup_lt_Some).
  split; cbn; rewrite ?Ek, ?Es, ?Ef; try done.
  - by rewrite insert_length.
  - intros j k s sub Hj. apply pending_insert in Hj as [Hj _]; [|done]. by eapply Hp.
  - intros j1 j2 k k' s s' sub H1 H2.
    apply pending_insert in H1 as [H1 _]; [|done]. apply pending_insert in H2 as [H2 _]; [|done].
    by eapply Ha.
  - intros s Hnone. apply Hs. intros j k sub Hj. apply (Hnone j k sub).
    by eapply pending_insert_ne.
  - eapply threads_silent; done.
Qed.

(** One that takes effect and changes neither history. *)
Lemma exact_look sh calls l g (ts : list ps_thread) p (i : nat) c t t' p' :
  exact sh calls l g (ts, p) -> excl sh (<[i := t']> ts) ->
  calls !! i = Some c -> ts !! i = Some t -> i ∉ l ->
  pends t = false -> pends t' = false ->
  ps_after (ops calls (l ++ [i])) = ps_after (ops calls l) -> p' = p ->
  exact_ok calls (l ++ [i]) g i c t' -> exact sh calls (l ++ [i]) g (<[i := t']> ts, p').
Proof.
  intros [He Hn Hlen Hk Hf Hg Ho Hp Ha Hs Hth] He' Hc Hi Hil Ht Ht' EP -> Hok. cbn in *.
  assert (Hlt : i < length ts) by (by eapply lookup_lt_Some).
  split; cbn; rewrite ?EP; try done.
  - apply NoDup_app. split_and!; [done| |apply NoDup_singleton].
    intros j Hj ->%elem_of_list_singleton. done.
  - by rewrite insert_length.
  - intros j k s sub Hj. apply pending_insert in Hj as [Hj _]; [|done]. by eapply Hp.
  - intros j1 j2 k k' s s' sub H1 H2.
    apply pending_insert in H1 as [H1 _]; [|done]. apply pending_insert in H2 as [H2 _]; [|done].
    by eapply Ha.
  - intros s Hnone. apply Hs. intros j k sub Hj. apply (Hnone j k sub).
    by eapply pending_insert_ne.
  - rewrite <- (app_nil_r g) in Hok |- *. rewrite <- (app_nil_r g) in Hth.
    rewrite (app_nil_r g) in Hth. eapply threads_effect; done.
Qed.

Lemma exact_begin sh calls : Forall (fun c => ~ unsubscribes c) calls ->
  exact sh calls [] [] (ps_begin calls).
Proof.
  intros Hu.
  assert (Hst : forall i t, (ps_begin calls).1 !! i = Some t -> exists c, calls !! i = Some c /\ t = ps_start c).
  { intros i t H. cbn in H. change (map ps_start calls) with (ps_start <$> calls) in H.
    rewrite list_lookup_fmap in H. destruct (calls !! i) as [c|]; [|done]. injection H as <-. eauto. }
  split; try (cbn; done).
  - intros i j t u a b _ Hi _ Ha. apply Hst in Hi as (c & _ & ->). destruct c; by apply elem_of_nil in Ha.
  - cbn. constructor.
  - cbn. by rewrite map_length.
  - constructor.
  - intros i k s sub H. apply Hst in H as (c & _ & H). by destruct c.
  - intros i j k k' s s' sub H. apply Hst in H as (c & _ & H). by destruct c.
  - intros i c t Hc Ht. apply Hst in Ht as (c' & Hc' & ->). simplify_eq.
    assert (i ∉ []) by apply not_elem_of_nil.
    destruct c; try done. cbn. apply (Forall_lookup_1 _ _ _ _ Hu Hc). by eexists _, _.
Qed.

Lemma exact_step sh calls l g x i y : exact sh calls l g x -> ps_step sh i x = Some y ->
  exists g', exact sh calls
    (l ++ if match x.1 !! i with Some t => key_effect x.2 t | None => false end then [i] else []) g' y.
Proof.
  destruct x as [ts p]. intros HI H. cbn.
  pose proof (excl_step sh ts p i y (ex_excl _ _ _ _ _ HI) H) as Hex.
  apply ps_step_inv in H as (t & t' & p' & Hi & Hgr & Hact & ->). rewrite Hi. cbn in Hex.
  pose proof HI as [He Hn Hlen Hk Hf Hg Ho Hp Ha Hs Hth]. cbn in He, Hlen, Hk, Hf, Ho, Hp, Ha, Hs, Hth.
  assert (Hlt : i < length ts) by (by eapply lookup_lt_Some).
  destruct (lookup_lt_is_Some_2 calls i) as [c Hc]; [lia|].
  pose proof (Hth i c t Hc Hi) as Ht.
  set (P := ps_after (ops calls l)) in *.
  assert (Hops : ps_after (ops calls (l ++ [i])) = match op_of c with Some o => ps_do P o | None => P end).
  { rewrite ops_snoc, Hc. cbn. destruct (op_of c); cbn; [by rewrite ps_after_snoc|by rewrite app_nil_r]. }
  (* nobody else is between its two steps when the lock of a session is there or wanted *)
  assert (Hheld : forall s b, (LSession (shard_of_session sh s), b) ∈ holds sh t -> pends t = false ->
    forall j k sub, ts !! j <> Some (TSubSession k s sub)).
  { intros s b Hh Hpe j k sub Hj. destruct (decide (i = j)) as [<-|Hne].
    { rewrite Hi in Hj. by injection Hj as ->. }
    assert (Hcf : conflict (LSession (shard_of_session sh s), b) (LSession (shard_of_session sh s), true) = false).
    { eapply (He i j); [done..|]. cbn. apply elem_of_list_singleton. done. }
    unfold conflict in Hcf. cbn in Hcf. rewrite bool_decide_eq_true_2, orb_true_r in Hcf by done. done. }
  assert (Hwanted : forall s b, wants sh t = Some (LSession (shard_of_session sh s), b) ->
    forall j k sub, ts !! j <> Some (TSubSession k s sub)).
  { intros s b Hw j k sub Hj.
    assert (Hcf : conflict (LSession (shard_of_session sh s), b) (LSession (shard_of_session sh s), true) = false).
    { eapply granted_spec; [done|done|exact Hj|]. cbn. apply elem_of_list_singleton. done. }
    unfold conflict in Hcf. cbn in Hcf. rewrite bool_decide_eq_true_2, orb_true_r in Hcf by done. done. }
  destruct t as [k s|k s|k s|k s sub|k s r|k s|k s|k s b|k s b|s|s|[|z lc]|r]; cbn [key_effect];
    rewrite ?app_nil_r; cbn in Ht; try done.
  - (* get: lock *)
    injection Hact as <- <-. exists g. by eapply exact_quiet.
  - (* get *)
    injection Hact as <- <-. destruct Ht as [-> Hil]. exists g. eapply exact_look; try done.
    apply result_new. fold P. cbn. specialize (Hs s). unfold ps_get.
    assert (Hno : forall j k' sub, ts !! j <> Some (TSubSession k' s sub)).
    { eapply Hheld; [|done]. cbn. by apply elem_of_list_singleton. }
    specialize (Hs Hno). destruct (ps_sessions p !! s), (ps_sessions P !! s); done.
  - (* subscribe: session *)
    destruct Ht as [-> Hil].
    assert (Hno : forall j k' sub, ts !! j <> Some (TSubSession k' s sub)) by (by eapply Hwanted).
    pose proof (Hs s Hno) as Hss. cbn in Hact. unfold ps_get.
    set (m := default ∅ (ps_sessions p !! s)) in *.
    set (M := default ∅ (ps_sessions P !! s)).
    assert (HmM : same_subs g m M).
    { unfold m, M. destruct (ps_sessions p !! s), (ps_sessions P !! s); try done. }
    assert (Hget : match ps_sessions p !! s with Some m => m !! k | None => None end = m !! k).
    { unfold m. by destruct (ps_sessions p !! s). }
    rewrite Hget. destruct (m !! k) as [a|] eqn:Ek.
    + (* it is there already *)
      injection Hact as <- <-.
      pose proof (HmM k) as Hmk. rewrite Ek in Hmk. destruct (M !! k) as [b|] eqn:EMk; [|done].
      assert (Hsp : ps_sessions p !! s = Some m).
      { unfold m in *. destruct (ps_sessions p !! s); [done|]. cbn in Ek. by rewrite lookup_empty in Ek. }
      assert (HsP : ps_sessions P !! s = Some M).
      { unfold M in *. destruct (ps_sessions P !! s); [done|]. cbn in EMk. by rewrite lookup_empty in EMk. }
      assert (HPP : ps_after (ops calls (l ++ [i])) = P).
      { rewrite Hops. cbn. unfold ps_subscribe. fold M. rewrite EMk. cbn.
        rewrite insert_id by done. by destruct P. }
      exists g. eapply exact_look; try done.
      * rewrite insert_id by done. by destruct p.
      * apply result_new. fold P. cbn. unfold ps_subscribe. fold M. rewrite EMk. done.
    + (* it is not; nothing is to be seen of it yet *)
      injection Hact as <- <-. rewrite app_nil_r. exists g.
      assert (HMk : M !! k = None).
      { pose proof (HmM k) as Hmk. rewrite Ek in Hmk. by destruct (M !! k). }
      split; cbn; try done.
      * by rewrite insert_length.
      * eapply Forall_impl; [exact Ho|]. cbn. intros; lia.
      * intros j k1 s1 sub1 Hj. destruct (decide (j = i)) as [->|Hji].
        { rewrite list_lookup_insert in Hj by done. injection Hj as <- <- <-.
          split. { intros Hin. apply (proj1 (Forall_forall _ _) Ho) in Hin. lia. }
          split; [lia|]. exists m. rewrite lookup_insert. done. }
        rewrite list_lookup_insert_ne in Hj by done.
        assert (Hs1 : s1 <> s). { intros ->. by eapply Hno. }
        destruct (Hp j k1 s1 sub1 Hj) as (H1 & H2 & H3). rewrite lookup_insert_ne by done.
        split_and!; [done|lia|done].
      * intros j1 j2 k1 k2 s1 s2 sub1 H1 H2.
        destruct (decide (j1 = i)) as [->|H1i], (decide (j2 = i)) as [->|H2i]; [done|..].
        { rewrite list_lookup_insert in H1 by done. rewrite list_lookup_insert_ne in H2 by done.
          injection H1 as <- <- <-. destruct (Hp _ _ _ _ H2) as (_ & ? & _). lia. }
        { rewrite list_lookup_insert in H2 by done. rewrite list_lookup_insert_ne in H1 by done.
          injection H2 as <- <- <-. destruct (Hp _ _ _ _ H1) as (_ & ? & _). lia. }
        rewrite list_lookup_insert_ne in H1, H2 by done. by eapply Ha.
      * intros s1 Hn1. assert (Hs1 : s <> s1).
        { intros ->. apply (Hn1 i k (ps_fresh p)). by rewrite list_lookup_insert. }
        rewrite lookup_insert_ne by done. apply Hs. intros j k1 sub1 Hj. apply (Hn1 j k1 sub1).
        by eapply pending_insert_ne.
      * eapply threads_silent; done.
  - (* subscribe: key *)
    destruct Ht as [-> Hil]. destruct (Hp i k s sub Hi) as (Hnew & Hold & m & Hm & Hmk & HmM).
    set (M := default ∅ (ps_sessions P !! s)) in *.
    assert (HMk : M !! k = None).
    { pose proof (HmM k) as H1. rewrite Hmk in H1. by destruct (M !! k). }
    set (Q := ps_after (ops calls (l ++ [i]))) in *. cbn in Hops.
    assert (HQ : ps_sessions Q = <[s := <[k := ps_fresh P]> M]> (ps_sessions P) /\
                 ps_fresh Q = (ps_fresh P + 1)%N /\
                 ps_keys Q = match ps_keys P !! k with
                             | Some _ => ps_keys P | None => <[k := {[s]}]> (ps_keys P) end).
    { rewrite Hops. unfold ps_subscribe. fold M. rewrite HMk. cbn. by destruct (ps_keys P !! k). }
    destruct HQ as (HQs & HQf & HQk).
    assert (Hr : exists r, t' = TSubKey k s r /\ r = (match ps_keys P !! k with Some _ => None | None => Some sub end) /\
      ps_keys p' = ps_keys Q /\ ps_sessions p' = ps_sessions p /\ ps_fresh p' = ps_fresh p).
    { cbn in Hact. rewrite HQk, <- Hk. destruct (ps_keys p !! k); injection Hact as <- <-; by eexists. }
    destruct Hr as (r & -> & Hr & Hpk & Hps & Hpf).
    assert (Hlast : (g ++ [sub]) !! N.to_nat (ps_fresh P) = Some sub).
    { rewrite Hf, lookup_app_r, Nat.sub_diag by lia. done. }
    assert (Halone : same_result (g ++ [sub]) (RSubscribe r) (alone P (CallSubscribe k s))).
    { cbn. unfold ps_subscribe. fold M. rewrite HMk. cbn. subst r. by destruct (ps_keys P !! k). }
    assert (Hother : forall j k1 sub1, j <> i -> ts !! j <> Some (TSubSession k1 s sub1)).
    { intros j k1 sub1 Hji Hj.
      assert (Hcf : conflict (LSession (shard_of_session sh s), true) (LSession (shard_of_session sh s), true) = false).
      { eapply (He i j); [done|exact Hi|exact Hj| |]; cbn; by apply elem_of_list_singleton. }
      unfold conflict in Hcf. cbn in Hcf. by rewrite bool_decide_eq_true_2 in Hcf. }
    exists (g ++ [sub]). split; cbn; rewrite ?Hpk, ?Hps, ?Hpf; fold Q; try done.
    + apply NoDup_app. split_and!; [done| |apply NoDup_singleton].
      intros j Hj ->%elem_of_list_singleton. done.
    + by rewrite insert_length.
    + rewrite HQf, app_length. cbn. lia.
    + apply NoDup_app. split_and!; [done| |apply NoDup_singleton].
      intros a Hain ->%elem_of_list_singleton. done.
    + apply Forall_app. split; [done|]. by apply Forall_singleton.
    + intros j k1 s1 sub1 Hj. apply pending_insert in Hj as [Hj Hji]; [|done].
      destruct (Hp j k1 s1 sub1 Hj) as (H1 & H2 & m1 & H3 & H4 & H5). split_and!; [|done|].
      { intros [?|Hx%elem_of_list_singleton]%elem_of_app; [done|]. subst sub1.
        by apply Hji, (Ha j i k1 k s1 s sub). }
      exists m1. split; [done|]. split; [done|].
      assert (s1 <> s). { intros ->. by eapply Hother. }
      rewrite HQs, lookup_insert_ne by done. by apply same_subs_grow.
    + intros j1 j2 k1 k2 s1 s2 sub1 H1 H2.
      apply pending_insert in H1 as [H1 _]; [|done]. apply pending_insert in H2 as [H2 _]; [|done].
      by eapply Ha.
    + intros s1 Hn1. rewrite HQs. destruct (decide (s1 = s)) as [->|Hs1].
      * rewrite lookup_insert, Hm. intros k1. destruct (decide (k1 = k)) as [->|Hk1].
        { rewrite !lookup_insert. exact Hlast. }
        rewrite !lookup_insert_ne by done. apply same_sub_grow, HmM.
      * rewrite lookup_insert_ne by done.
        assert (Hno : forall j k1 sub1, ts !! j <> Some (TSubSession k1 s1 sub1)).
        { intros j k1 sub1 Hj. apply (Hn1 j k1 sub1). destruct (decide (j = i)) as [->|Hji].
          - rewrite Hi in Hj. injection Hj as -> ->. done.
          - by rewrite list_lookup_insert_ne. }
        specialize (Hs s1 Hno). destruct (ps_sessions p !! s1), (ps_sessions P !! s1); try done.
        by apply same_subs_grow.
    + eapply threads_effect; try done. split; [done|]. apply result_new. exact Halone.
  - (* subscribe: return *)
    injection Hact as <- <-. destruct Ht as [-> Hr]. exists g. by eapply exact_quiet.
  - injection Hact as <- <-. exists g. by eapply exact_quiet.
  - (* removal *)
    destruct Ht as [-> Hil].
    assert (Hno : forall j k sub, ts !! j <> Some (TSubSession k s sub)).
    { eapply Hheld; [|done]. cbn. by apply elem_of_list_singleton. }
    pose proof (Hs s Hno) as Hss. cbn in Hact, Hops. unfold ps_remove_session in Hops.
    destruct (ps_sessions p !! s) as [m|] eqn:Em, (ps_sessions P !! s) as [M|] eqn:EM; try done;
      injection Hact as <- <-.
    + exists g. set (Q := ps_after (ops calls (l ++ [i]))) in *. cbn in Hops.
      split; cbn; fold Q; rewrite ?Hops; cbn; try done.
      * apply NoDup_app. split_and!; [done| |apply NoDup_singleton].
        intros j Hj ->%elem_of_list_singleton. done.
      * by rewrite insert_length.
      * intros j k1 s1 sub1 Hj. apply pending_insert in Hj as [Hj Hji]; [|done].
        assert (s1 <> s). { intros ->. by eapply Hno. }
        rewrite !lookup_delete_ne by done. by apply (Hp j).
      * intros j1 j2 k1 k2 s1 s2 sub1 H1 H2.
        apply pending_insert in H1 as [H1 _]; [|done]. apply pending_insert in H2 as [H2 _]; [|done].
        by eapply Ha.
      * intros s1 Hn1. destruct (decide (s1 = s)) as [->|Hs1]; [by rewrite !lookup_delete|].
        rewrite !lookup_delete_ne by done. apply Hs. intros j k1 sub1 Hj. apply (Hn1 j k1 sub1).
        by eapply pending_insert_ne.
      * rewrite <- (app_nil_r g). eapply threads_effect; try done. cbn. split; [by eexists|].
        rewrite app_nil_r. apply result_new. fold P. cbn. unfold ps_remove_session. by rewrite EM.
    + exists g. eapply exact_look; try done.
      apply result_new. fold P. cbn. unfold ps_remove_session. by rewrite EM.
  - injection Hact as <- <-. destruct Ht as [_ Hr]. exists g. by eapply exact_quiet.
  - injection Hact as <- <-. exists g. by eapply exact_quiet.
Qed.

Lemma exact_run sh calls sched x : Forall (fun c => ~ unsubscribes c) calls ->
  ps_run sh sched (ps_begin calls) = Some x ->
  exists g, exact sh calls (key_order sh sched (ps_begin calls)) g x.
Proof.
  intros Hu. revert x; induction sched as [|i sched IH] using rev_ind; intros x H.
  { injection H as <-. exists []. by apply exact_begin. }
  rewrite ps_run_app in H. rewrite key_order_app.
  destruct (ps_run sh sched (ps_begin calls)) as [y|]; [|done]. cbn in H |- *.
  destruct (ps_step sh i y) as [z|] eqn:E; [|done]. injection H as ->.
  rewrite app_nil_r. destruct (IH y eq_refl) as [g Hg]. by apply (exact_step sh calls _ g).
Qed.

Lemma c77_results (sh : sharding) (calls : list ps_call) (sched : list nat) :
  Forall (fun c => ~ unsubscribes c) calls -> results_linearizable sh calls sched.
Proof.
  intros Hu. exists (fun n => key_order sh (take n sched) (ps_begin calls)). intros n x Hn H. split.
  - destruct (exact_run sh calls _ x Hu H) as [g Hg]. split; [by apply Hg|].
    exists g. split; [by apply Hg|]. intros i c t Hc Ht.
    pose proof (ex_threads _ _ _ _ _ Hg i c t Hc Ht) as Hok. split.
    + intros Hi ->. destruct c; cbn in Hok; try done; by destruct Hok.
    + intros r ->. exact Hok.
  - intros m Hm. rewrite <- (take_drop m (take n sched)), take_take, Nat.min_l by lia.
    rewrite key_order_app. by eexists.
Qed.
