(** Proofs about concurrent use of the subscriptions. *)
From Verif Require Import Bytes PubSub LibSpec PubSubFacts ConcPubSub ConcPubSubSpec.
From stdpp Require Import gmap list.
From Coq Require Import NArith Lia.

Lemma ps_run_app sh s1 s2 x :
  ps_run sh (s1 ++ s2) x = match ps_run sh s1 x with Some y => ps_run sh s2 y | None => None end.
Proof.
  revert x; induction s1 as [|i s1 IH]; intros x; cbn; [done|].
  destruct (ps_step sh i x); [apply IH|done].
Qed.

Lemma ps_step_inv sh i ts p y : ps_step sh i (ts, p) = Some y ->
  exists t t' p', ts !! i = Some t /\ granted sh ts t = true /\ ps_act t p = Some (t', p') /\
    y = (<[i := t']> ts, p').
Proof.
  unfold ps_step; cbn. intros H. destruct (ts !! i) as [t|] eqn:Et; [|done].
  destruct (granted sh ts t) eqn:Eg; [|done].
  destruct (ps_act t p) as [[t' p']|] eqn:Ea; [|done]. injection H as <-. by eexists _, _, _.
Qed.

(** ** No deadlock *)

Lemma act_moves t p : ~ returned t -> exists t' p', ps_act t p = Some (t', p').
Proof.
  intros H. destruct t; cbn; try (by eexists _, _);
    try (by repeat match goal with |- context [match ?x with _ => _ end] => destruct x end; eexists _, _).
  exfalso. apply H. by eexists.
Qed.

Lemma granted_moves sh ts p i t : ts !! i = Some t -> ~ returned t -> granted sh ts t = true ->
  exists j y, ps_step sh j (ts, p) = Some y.
Proof.
  intros Hi Hr Hg. destruct (act_moves t p Hr) as (t' & p' & Ha).
  exists i. unfold ps_step. cbn. rewrite Hi, Hg, Ha. by eexists.
Qed.

Definition has_session (t : ps_thread) : bool :=
  match t with TSubSession _ _ _ => true | _ => false end.
Definition unasking (t : ps_thread) : bool :=
  match t with
  | TGetting _ _ | TSubKey _ _ _ | TUnsubKey _ _ | TUnsubSession _ _ _ | TRemoving _
  | TClosing _ => true
  | _ => false
  end.

Lemma never_stuck sh ts p : Exists (fun t => ~ returned t) ts ->
  exists i y, ps_step sh i (ts, p) = Some y.
Proof.
  intros H.
  destruct (existsb unasking ts) eqn:E1.
  { apply existsb_exists in E1 as (t & Ht%elem_of_list_In & Hu).
    apply elem_of_list_lookup in Ht as [i Hi]. apply (granted_moves sh ts p i t Hi).
    - intros [r ->]. done.
    - unfold granted. by destruct t. }
  assert (H1 : forall t, t ∈ ts -> unasking t = false).
  { intros t Ht. destruct (unasking t) eqn:E; [|done]. rewrite <- E1. symmetry.
    apply existsb_exists. exists t. by rewrite <- elem_of_list_In. }
  destruct (existsb has_session ts) eqn:E2.
  { apply existsb_exists in E2 as (t & Ht%elem_of_list_In & Hu).
    apply elem_of_list_lookup in Ht as [i Hi]. apply (granted_moves sh ts p i t Hi).
    - intros [r ->]. done.
    - unfold granted. destruct t; try done. cbn. apply forallb_forall.
      intros t' Ht'%elem_of_list_In. specialize (H1 _ Ht').
      destruct t'; try done. }
  assert (H2 : forall t, t ∈ ts -> has_session t = false).
  { intros t Ht. destruct (has_session t) eqn:E; [|done]. rewrite <- E2. symmetry.
    apply existsb_exists. exists t. by rewrite <- elem_of_list_In. }
  apply Exists_exists in H as (t & Ht & Hr).
  apply elem_of_list_lookup in Ht as [i Hi]. apply (granted_moves sh ts p i t Hi Hr).
  unfold granted. destruct (wants sh t) as [a|]; [|done].
  apply forallb_forall. intros t' Ht'%elem_of_list_In.
  specialize (H1 _ Ht'). specialize (H2 _ Ht'). by destruct t'.
Qed.

(** ** Every call returns: a bound on the number of steps *)

Definition left_of (n : nat) (t : ps_thread) : nat :=
  match t with
  | TGet _ _ => 2 | TGetting _ _ => 1
  | TSubscribe _ _ => 3 | TSubSession _ _ _ => 2 | TSubKey _ _ _ => 1
  | TUnsubscribe _ _ => 4 | TUnsubKey _ _ => 3 | TUnsubbed _ _ _ => 2 | TUnsubSession _ _ _ => 1
  | TRemove _ => n + 3 | TRemoving _ => n + 2 | TClosing l => S (length l)
  | TReturned _ => 0
  end.
Definition left_all (n : nat) (ts : list ps_thread) : nat := sum_list_with (left_of n) ts.

Definition waiting_sub (t : ps_thread) : nat :=
  match t with TSubscribe _ _ => 1 | _ => 0 end.

Lemma sum_insert {A} (f : A -> nat) (l : list A) i x y :
  l !! i = Some x -> sum_list_with f (<[i := y]> l) + f x = sum_list_with f l + f y.
Proof.
  revert i; induction l as [|a l IH]; intros i H; [done|]. destruct i as [|i]; cbn in H.
  - injection H as ->. cbn. lia.
  - specialize (IH _ H). change (<[S i:=y]> (a :: l)) with (a :: <[i:=y]> l). cbn [sum_list_with]. lia.
Qed.

Record small (n : nat) (ts : list ps_thread) (p : pubsub) : Prop := Small {
  small_fresh : N.to_nat (ps_fresh p) + sum_list_with waiting_sub ts <= n;
  small_size : forall s m, ps_sessions p !! s = Some m -> size m <= N.to_nat (ps_fresh p) }.

Lemma small_act n ts p i t t' p' :
  small n ts p -> ts !! i = Some t -> ps_act t p = Some (t', p') ->
  small n (<[i := t']> ts) p' /\ left_of n t' < left_of n t.
Proof.
  intros [Hf Hs] Hi Ha.
  pose proof (sum_insert waiting_sub ts i t t' Hi) as Hw.
  assert (Hdef : forall s, size (default ∅ (ps_sessions p !! s)) <= N.to_nat (ps_fresh p)).
  { intros s. destruct (ps_sessions p !! s) as [m|] eqn:E; cbn; [by eapply Hs|].
    rewrite map_size_empty. lia. }
  destruct t; cbn in Ha;
    repeat match type of Ha with context [match ?x with _ => _ end] =>
      let E := fresh "E" in destruct x eqn:E end; simplify_eq; cbn in Hw;
    (split; [split; cbn [ps_fresh ps_sessions]|cbn; try lia]); try lia; try done.
  all: try (intros s' m Hm;
    match type of Hm with
    | <[?s := _]> _ !! _ = _ =>
      apply lookup_insert_Some in Hm as [[<- <-]|[_ Hm]];
        [specialize (Hdef s); try (specialize (Hs _ _ E)); rewrite ?map_size_insert, ?map_size_delete;
         repeat case_match; cbn; lia|specialize (Hs _ _ Hm); lia]
    | delete _ _ !! _ = _ => apply lookup_delete_Some in Hm as [_ Hm]; by eapply Hs
    end).
  rewrite fmap_length. specialize (Hs _ _ E). unfold size, map_size in Hs. lia.
Qed.

Lemma small_begin calls : small (length calls) (map ps_start calls) pubsub_new.
Proof.
  split; cbn.
  - induction calls as [|c calls IH]; cbn; [lia|]. destruct c; cbn; lia.
  - intros s m H. by rewrite lookup_empty in H.
Qed.

Lemma small_run n sh sched x y : small n x.1 x.2 -> ps_run sh sched x = Some y ->
  small n y.1 y.2 /\ length sched + left_all n y.1 <= left_all n x.1.
Proof.
  revert x; induction sched as [|i sched IH]; intros x Hx H; cbn in H.
  { injection H as <-. split; [done|cbn; lia]. }
  destruct (ps_step sh i x) as [z|] eqn:E; [|done].
  destruct x as [ts p]. apply ps_step_inv in E as (t & t' & p' & Hi & _ & Ha & ->). cbn in Hx.
  destruct (small_act _ _ _ _ _ _ _ Hx Hi Ha) as [Hz Hlt].
  destruct (IH (<[i:=t']> ts, p') Hz H) as [Hy Hle]. split; [done|]. cbn [length fst] in *.
  pose proof (sum_insert (left_of n) ts i t t' Hi). unfold left_all in *. lia.
Qed.

Lemma left_begin calls : left_all (length calls) (map ps_start calls)
  <= length calls * (length calls + 4).
Proof.
  generalize (length calls) at 1 3. intros n. unfold left_all.
  induction calls as [|c calls IH]; cbn [map sum_list_with length]; [lia|].
  assert (left_of n (ps_start c) <= n + 4) by (destruct c; cbn; lia). lia.
Qed.

Lemma left_zero n ts : left_all n ts = 0 -> Forall returned ts.
Proof.
  unfold left_all. induction ts as [|t ts IH]; intros H; [constructor|]. cbn in H.
  constructor; [|apply IH; lia]. destruct t; cbn in H; try lia. by eexists.
Qed.

Lemma returned_dec t : Decision (returned t).
Proof. destruct t; first [right; intros [? [=]]; done | left; by eexists]. Defined.

(** Threads never wait for each other for good: however far a schedule got, it can be continued
    until all calls have returned, and no schedule is longer than a bound. *)
Lemma c76 (sh : sharding) (calls : list ps_call) (sched : list nat) (x : ps_pool) :
  ps_run sh sched (ps_begin calls) = Some x ->
  (length sched <= length calls * (length calls + 4))%nat /\
  (Forall returned x.1 \/ exists i y, ps_step sh i x = Some y) /\
  exists more y, ps_run sh more x = Some y /\ Forall returned y.1.
Proof.
  intros H. set (n := length calls).
  destruct (small_run n sh sched (ps_begin calls) x (small_begin calls) H) as [Hx Hle].
  pose proof (left_begin calls) as Hb. fold n in Hb. unfold ps_begin, fst in Hle.
  split; [lia|].
  assert (Hmove : forall z : ps_pool, Forall returned z.1 \/ exists i y, ps_step sh i z = Some y).
  { intros [ts p]. cbn. destruct (@Forall_dec _ returned returned_dec ts) as [Ha|Ha]; [by left|].
    right. apply never_stuck. apply not_Forall_Exists in Ha; [done|]. intros t. apply returned_dec. }
  split; [apply Hmove|].
  clear H Hle Hb. remember (left_all n x.1) as k eqn:Hk.
  revert x Hx Hk. induction (lt_wf k) as [k _ IH]. intros x Hx ->.
  destruct (Hmove x) as [Ha|(i & y & Hs)]; [by exists [], x|].
  destruct (small_run n sh [i] x y Hx) as [Hy Hlt]; [cbn; by rewrite Hs|].
  destruct (IH (left_all n y.1)) with (x := y) as (more & z & Hm & Hz); [cbn in Hlt; lia|done|done|].
  exists (i :: more), z. cbn. by rewrite Hs.
Qed.

(** ** The order *)

Definition effect (t : ps_thread) : bool :=
  match t with
  | TGetting _ _ | TSubscribe _ _ | TUnsubSession _ _ _ | TRemoving _ => true
  | _ => false
  end.

(** The calls that have taken effect after a schedule. *)
Fixpoint order (sh : sharding) (sched : list nat) (x : ps_pool) : list nat :=
  match sched with
  | [] => []
  | i :: r =>
    match ps_step sh i x with
    | None => []
    | Some y =>
      (if match x.1 !! i with Some t => effect t | None => false end then [i] else [])
        ++ order sh r y
    end
  end.

Lemma order_app sh s1 s2 x : order sh (s1 ++ s2) x =
  order sh s1 x ++ match ps_run sh s1 x with Some y => order sh s2 y | None => [] end.
Proof.
  revert x; induction s1 as [|i s1 IH]; intros x; cbn; [done|].
  destruct (ps_step sh i x) as [y|]; [|done]. by rewrite IH, app_assoc.
Qed.

(** What is known of a thread with call [c], given the calls [l] that have taken effect. *)
Definition thread_ok (calls : list ps_call) (l : list nat) (i : nat) (c : ps_call)
  (t : ps_thread) : Prop :=
  let before p := ps_after (ops calls (take p l)) in
  match t with
  | TGet k s | TGetting k s => c = CallGet k s /\ i ∉ l
  | TSubscribe k s => c = CallSubscribe k s /\ i ∉ l
  | TSubSession k s sub => c = CallSubscribe k s /\ exists p, l !! p = Some i /\
      fitting (before p) c (RSubscribe (Some sub))
  | TSubKey k s r => c = CallSubscribe k s /\ exists p, l !! p = Some i /\
      fitting (before p) c (RSubscribe r)
  | TUnsubscribe k s | TUnsubKey k s | TUnsubbed k s _ | TUnsubSession k s _ =>
      c = CallUnsubscribe k s /\ i ∉ l
  | TRemove s | TRemoving s => c = CallRemove s /\ i ∉ l
  | TClosing _ => (exists s, c = CallRemove s) /\ exists p, l !! p = Some i /\
      fitting (before p) c (RRemove true)
  | TReturned r => exists p, l !! p = Some i /\ fitting (before p) c r
  end.

Definition closing (t : ps_thread) : list N := match t with TClosing l => l | _ => [] end.

Record inv (calls : list ps_call) (l : list nat) (x : ps_pool) : Prop := Inv {
  inv_nodup : NoDup l;
  inv_bound : Forall (fun i => i < length calls) l;
  inv_len : length x.1 = length calls;
  inv_sessions : ps_sessions x.2 = ps_sessions (ps_after (ops calls l));
  inv_fresh : ps_fresh x.2 = ps_fresh (ps_after (ops calls l));
  inv_closed : forall sub, sub ∈ ps_closed (ps_after (ops calls l)) <->
    sub ∈ ps_closed x.2 \/ exists t, t ∈ x.1 /\ sub ∈ closing t;
  inv_threads : forall i c t, calls !! i = Some c -> x.1 !! i = Some t -> thread_ok calls l i c t }.

Lemma ops_snoc calls l i : ops calls (l ++ [i]) =
  ops calls l ++ from_option (fun o => [o]) [] (calls !! i ≫= op_of).
Proof. unfold ops. rewrite omap_app. cbn. by destruct (calls !! i ≫= op_of). Qed.

Lemma thread_ok_grow calls l j i c t : i <> j ->
  thread_ok calls l i c t -> thread_ok calls (l ++ [j]) i c t.
Proof.
  intros Hne.
  assert (H1 : i ∉ l -> i ∉ l ++ [j]).
  { intros H Hin. apply elem_of_app in Hin as [?|Hx%elem_of_list_singleton]; done. }
  assert (H2 : forall r, (exists p, l !! p = Some i /\ fitting (ps_after (ops calls (take p l))) c r) ->
    exists p, (l ++ [j]) !! p = Some i /\ fitting (ps_after (ops calls (take p (l ++ [j])))) c r).
  { intros r (p & Hp & Hf). exists p. pose proof (lookup_lt_Some _ _ _ Hp).
    split; [by apply lookup_app_l_Some|]. by rewrite take_app_le by lia. }
  destruct t; cbn; first [apply H2 | intros [H3 H4]; split; [exact H3|]; first [by apply H1|by apply H2]].
Qed.
Lemma fitting_new calls l i c r : fitting (ps_after (ops calls l)) c r ->
  exists p, (l ++ [i]) !! p = Some i /\ fitting (ps_after (ops calls (take p (l ++ [i])))) c r.
Proof.
  intros H. exists (length l). rewrite lookup_app_r, Nat.sub_diag by lia. by rewrite take_app.
Qed.

Lemma closing_insert (ts : list ps_thread) (i : nat) (t t' : ps_thread) (sub : N) : ts !! i = Some t ->
  (exists u, u ∈ <[i := t']> ts /\ sub ∈ closing u) <->
  sub ∈ closing t' \/ exists u, u ∈ delete i ts /\ sub ∈ closing u.
Proof.
  intros Hi. pose proof (lookup_lt_Some _ _ _ Hi) as Hlt.
  pose proof (delete_Permutation (<[i:=t']> ts) i t') as Hp.
  rewrite list_lookup_insert in Hp by done. specialize (Hp eq_refl).
  assert (Hd : delete i (<[i:=t']> ts) = delete i ts).
  { clear -Hlt. revert i Hlt; induction ts as [|a ts IH]; intros [|i] Hlt; cbn in *; [lia..| |].
    - done.
    - f_equal. apply IH. lia. }
  rewrite Hd in Hp. setoid_rewrite Hp. setoid_rewrite elem_of_cons. naive_solver.
Qed.
Lemma closing_delete (ts : list ps_thread) (i : nat) (t : ps_thread) (sub : N) : ts !! i = Some t ->
  (exists u, u ∈ ts /\ sub ∈ closing u) <->
  sub ∈ closing t \/ exists u, u ∈ delete i ts /\ sub ∈ closing u.
Proof.
  intros Hi. rewrite <- (closing_insert ts i t t sub Hi). by rewrite list_insert_id by done.
Qed.

(** A step that takes no effect. *)
Lemma inv_silent calls l (ts : list ps_thread) p (i : nat) c t t' p' :
  inv calls l (ts, p) -> calls !! i = Some c -> ts !! i = Some t ->
  ps_sessions p' = ps_sessions p -> ps_fresh p' = ps_fresh p ->
  (forall sub, sub ∈ ps_closed p' \/ sub ∈ closing t' <-> sub ∈ ps_closed p \/ sub ∈ closing t) ->
  thread_ok calls l i c t' ->
  inv calls l (<[i := t']> ts, p').
Proof.
  intros [Hn Hb Hlen Hs Hf Hcl Hth] Hc Hi Hs' Hf' Hcl' Ht'. cbn in *.
  split; cbn; try done.
  - by rewrite insert_length.
  - by rewrite Hs'.
  - by rewrite Hf'.
  - intros sub. rewrite Hcl, (closing_delete ts i t sub Hi), (closing_insert ts i t t' sub Hi).
    specialize (Hcl' sub). tauto.
  - intros j cj tj Hcj Htj. destruct (decide (j = i)) as [Heq|Hne]; [subst|].
    + rewrite list_lookup_insert in Htj by (by eapply lookup_lt_Some). by simplify_eq.
    + rewrite list_lookup_insert_ne in Htj by done. by eapply Hth.
Qed.

(** A step that takes effect. *)
Lemma inv_effect calls (l : list nat) (ts : list ps_thread) p (i : nat) c t t' p' :
  inv calls l (ts, p) -> calls !! i = Some c -> ts !! i = Some t -> i ∉ l ->
  ps_sessions p' = ps_sessions (ps_after (ops calls (l ++ [i]))) ->
  ps_fresh p' = ps_fresh (ps_after (ops calls (l ++ [i]))) -> closing t = [] ->
  ps_closed p' = ps_closed p ->
  (forall sub, sub ∈ ps_closed (ps_after (ops calls (l ++ [i]))) <-> sub ∈ ps_closed (ps_after (ops calls l)) \/ sub ∈ closing t') ->
  thread_ok calls (l ++ [i]) i c t' ->
  inv calls (l ++ [i]) (<[i := t']> ts, p').
Proof.
  intros [Hn Hb Hlen Hs Hf Hcl Hth] Hc Hi Hil Hs' Hf' Hct Hcp Hcl' Ht'. cbn in *.
  split; cbn; try done.
  - apply NoDup_app. split_and!; [done| |apply NoDup_singleton].
    intros j Hj ->%elem_of_list_singleton. done.
  - apply Forall_app. split; [done|]. apply Forall_singleton. by eapply lookup_lt_Some.
  - by rewrite insert_length.
  - intros sub. rewrite Hcl', Hcl, (closing_delete ts i t sub Hi), (closing_insert ts i t t' sub Hi).
    rewrite Hct, Hcp, elem_of_nil. tauto.
  - intros j cj tj Hcj Htj. destruct (decide (j = i)) as [Heq|Hne]; [subst|].
    + rewrite list_lookup_insert in Htj by (by eapply lookup_lt_Some). by simplify_eq.
    + rewrite list_lookup_insert_ne in Htj by done. apply thread_ok_grow; [done|]. by eapply Hth.
Qed.

Lemma inv_step sh calls l x i y : inv calls l x -> ps_step sh i x = Some y ->
  inv calls (l ++ if match x.1 !! i with Some t => effect t | None => false end then [i] else []) y.
Proof.
  destruct x as [ts p]. intros HI H. cbn.
  apply ps_step_inv in H as (t & t' & p' & Hi & _ & Ha & ->). rewrite Hi.
  pose proof HI as [Hn Hb Hlen Hs Hf Hcl Hth]. cbn in Hlen, Hs, Hf, Hcl, Hth.
  destruct (lookup_lt_is_Some_2 calls i) as [c Hc].
  { rewrite <- Hlen. by eapply lookup_lt_Some. }
  pose proof (Hth i c t Hc Hi) as Ht.
  set (h := ops calls l) in *.
  assert (Hops : ops calls (l ++ [i]) = h ++ from_option (fun o => [o]) [] (op_of c)).
  { rewrite ops_snoc, Hc. done. }
  destruct t as [k s|k s|k s|k s sub|k s r|k s|k s|k s b|k s b|s|s|[|z lc]|r]; cbn [effect];
    rewrite ?app_nil_r; cbn in Ht.
  - (* get: lock *)
    injection Ha as <- <-. by eapply inv_silent.
  - (* get *)
    injection Ha as <- <-. destruct Ht as [-> Hil]. cbn in Hops. rewrite app_nil_r in Hops.
    eapply inv_effect; try done.
    + by rewrite Hops.
    + by rewrite Hops.
    + rewrite Hops. cbn. intros sub. rewrite elem_of_nil. tauto.
    + apply fitting_new. cbn. f_equal. unfold ps_get. by rewrite Hs.
  - (* subscribe: session *)
    destruct Ht as [-> Hil]. cbn in Hops.
    assert (Hq : ps_after (ops calls (l ++ [i])) = (ps_subscribe (ps_after h) k s).1).
    { by rewrite Hops, ps_after_snoc. }
    cbn in Ha. rewrite Hs, Hf in Ha. unfold ps_subscribe in Hq.
    destruct (default ∅ (ps_sessions (ps_after h) !! s) !! k) as [x|] eqn:Ek.
    + injection Ha as <- <-. eapply inv_effect; try done.
      * by rewrite Hq.
      * by rewrite Hq.
      * rewrite Hq. cbn. intros sub. rewrite elem_of_nil. tauto.
      * apply fitting_new. by left.
    + injection Ha as <- <-. cbn [ps_keys] in Hq.
      assert (Hq' : ps_sessions (ps_after (ops calls (l ++ [i]))) =
                    <[s:=<[k:=ps_fresh (ps_after h)]> (default ∅ (ps_sessions (ps_after h) !! s))]>
                      (ps_sessions (ps_after h)) /\
                    ps_fresh (ps_after (ops calls (l ++ [i]))) = (ps_fresh (ps_after h) + 1)%N /\
                    ps_closed (ps_after (ops calls (l ++ [i]))) = ps_closed (ps_after h)).
      { rewrite Hq. by destruct (ps_keys (ps_after h) !! k). }
      destruct Hq' as (Hq1 & Hq2 & Hq3).
      eapply inv_effect; try done.
      * rewrite Hq3. cbn. intros sub. rewrite elem_of_nil. tauto.
      * split; [done|]. apply fitting_new. right. fold h. split.
        { unfold ps_get. destruct (ps_sessions (ps_after h) !! s) as [m|]; [exact Ek|done]. }
        eexists. split; [done|].
        assert (Hsub : (ps_subscribe (ps_after h) k s).1 = ps_after (ops calls (l ++ [i])))
          by (by rewrite Hops, ps_after_snoc).
        rewrite Hsub. unfold ps_get. by rewrite Hq1, !lookup_insert.
  - (* subscribe: key *)
    destruct Ht as [-> (q & Hq & Hfit)]. cbn in Ha.
    assert (Hp : exists r, t' = TSubKey k s r /\ (r = None \/ r = Some sub) /\
      ps_sessions p' = ps_sessions p /\ ps_fresh p' = ps_fresh p /\ ps_closed p' = ps_closed p).
    { destruct (ps_keys p !! k); injection Ha as <- <-; eexists; (split; [done|]);
        (split; [auto|]); done. }
    destruct Hp as (r & -> & Hr & H1 & H2 & H3).
    eapply inv_silent; try done.
    + intros ?. by rewrite H3.
    + split; [done|]. exists q. split; [done|]. destruct Hr as [->| ->]; [by left|done].
  - (* subscribe: return *)
    injection Ha as <- <-. destruct Ht as [-> Hex]. by eapply inv_silent.
  - injection Ha as <- <-. by eapply inv_silent.
  - (* unsubscribe: key *)
    cbn in Ha.
    assert (Hp : exists b, t' = TUnsubbed k s b /\
      ps_sessions p' = ps_sessions p /\ ps_fresh p' = ps_fresh p /\ ps_closed p' = ps_closed p).
    { destruct (ps_keys p !! k); injection Ha as <- <-; by eexists. }
    destruct Hp as (b & -> & H1 & H2 & H3). eapply inv_silent; try done. intros ?. by rewrite H3.
  - injection Ha as <- <-. by eapply inv_silent.
  - (* unsubscribe: session *)
    destruct Ht as [-> Hil]. cbn in Hops.
    assert (Hq : ps_after (ops calls (l ++ [i])) = (ps_unsubscribe (ps_after h) k s).1).
    { by rewrite Hops, ps_after_snoc. }
    assert (Hp : exists r, t' = TReturned (RUnsubscribe r) /\
      ps_sessions p' = ps_sessions (ps_after (ops calls (l ++ [i]))) /\
      ps_fresh p' = ps_fresh (ps_after (ops calls (l ++ [i]))) /\ ps_closed p' = ps_closed p /\
      ps_closed (ps_after (ops calls (l ++ [i]))) = ps_closed (ps_after h) /\
      (r = true \/ (ps_get (ps_after h) k s = None /\ r = false))).
    { rewrite Hq. unfold ps_unsubscribe, ps_get. cbn in Ha. rewrite Hs in Ha.
      destruct (ps_keys (ps_after h) !! k), (ps_sessions (ps_after h) !! s) as [m|];
        injection Ha as <- <-; cbn; eexists; (split; [done|]); rewrite ?Hs, ?Hf;
        (split_and!; [done..|]); try (destruct (m !! k)); destruct b; cbn; auto. }
    destruct Hp as (r & -> & H1 & H2 & H3 & H4 & Hr).
    eapply inv_effect; try done.
    + rewrite H4. cbn. intros sub. rewrite elem_of_nil. tauto.
    + apply fitting_new. fold h. cbn. destruct Hr as [->|[? ->]]; auto.
  - injection Ha as <- <-. by eapply inv_silent.
  - (* removal *)
    destruct Ht as [-> Hil]. cbn in Hops.
    assert (Hq : ps_after (ops calls (l ++ [i])) = (ps_remove_session (ps_after h) s).1).
    { by rewrite Hops, ps_after_snoc. }
    cbn in Ha. rewrite Hs in Ha. unfold ps_remove_session in Hq.
    destruct (ps_sessions (ps_after h) !! s) as [m|] eqn:Es; injection Ha as <- <-.
    + eapply inv_effect; try done.
      * by rewrite Hq.
      * by rewrite Hq.
      * rewrite Hq. cbn. intros sub. rewrite elem_of_union, elem_of_list_to_set. done.
      * split; [by eexists|]. apply fitting_new. fold h. cbn. unfold ps_remove_session. by rewrite Es.
    + eapply inv_effect; try done.
      * by rewrite Hq.
      * by rewrite Hq.
      * rewrite Hq. cbn. intros sub. rewrite elem_of_nil. tauto.
      * apply fitting_new. fold h. cbn. unfold ps_remove_session. by rewrite Es.
  - injection Ha as <- <-. destruct Ht as [_ Hex]. by eapply inv_silent.
  - injection Ha as <- <-. eapply inv_silent; try done. cbn. intros sub.
    rewrite elem_of_union, elem_of_singleton, elem_of_cons. tauto.
  - done.
Qed.

Lemma inv_begin calls : inv calls [] (ps_begin calls).
Proof.
  split; cbn; try done.
  - constructor.
  - by rewrite map_length.
  - intros sub. split; [by left|]. intros [H|(t & Ht & Hsub)]; [done|].
    apply elem_of_list_In, in_map_iff in Ht as (c & <- & _). by destruct c; apply elem_of_nil in Hsub.
  - intros i c t Hc Ht. change (map ps_start calls) with (ps_start <$> calls) in Ht.
    rewrite list_lookup_fmap, Hc in Ht. injection Ht as <-.
    assert (i ∉ []) by apply not_elem_of_nil. by destruct c.
Qed.

Lemma inv_run sh calls sched x :
  ps_run sh sched (ps_begin calls) = Some x -> inv calls (order sh sched (ps_begin calls)) x.
Proof.
  revert x; induction sched as [|i sched IH] using rev_ind; intros x H.
  { injection H as <-. apply inv_begin. }
  rewrite ps_run_app in H. rewrite order_app.
  destruct (ps_run sh sched (ps_begin calls)) as [y|]; [|done]. cbn in H |- *.
  destruct (ps_step sh i y) as [z|] eqn:E; [|done]. injection H as ->.
  rewrite app_nil_r. apply (inv_step sh); [by apply IH|done].
Qed.

Lemma inv_explained calls l x : inv calls l x -> explained calls l x.
Proof.
  intros [Hn Hb Hlen Hs Hf Hcl Hth]. split; [done|]. split.
  { intros k s. unfold ps_get. by rewrite Hs. }
  intros i c t Hc Ht. specialize (Hth i c t Hc Ht). split.
  - intros Hi ->. destruct c; cbn in Hth; by destruct Hth.
  - intros r ->. exact Hth.
Qed.

Lemma c77 (sh : sharding) (calls : list ps_call) (sched : list nat) :
  subscriptions_linearizable sh calls sched.
Proof.
  exists (fun n => order sh (take n sched) (ps_begin calls)). intros n x Hn H. split.
  - by apply inv_explained, (inv_run sh).
  - intros m Hm. rewrite <- (take_drop m (take n sched)), take_take, Nat.min_l by lia.
    rewrite order_app. by eexists.
Qed.

(** A subscription that is held is open; when all calls have returned, exactly those subscriptions
    are closed that would be after making the calls in the order. *)
Lemma c77_open (sh : sharding) (calls : list ps_call) (sched : list nat) (x : ps_pool) k s sub :
  ps_run sh sched (ps_begin calls) = Some x ->
  ps_get x.2 k s = Some sub -> sub ∉ ps_closed x.2.
Proof.
  intros H Hg Hin. destruct (inv_run sh calls sched x H) as [_ _ _ Hs _ Hcl _].
  assert (Hg' : ps_get (ps_after (ops calls (order sh sched (ps_begin calls)))) k s = Some sub).
  { unfold ps_get in *. by rewrite <- Hs. }
  apply (c61_open _ _ _ _ Hg'). apply Hcl. by left.
Qed.

(** A call of [remove_session] that has returned has closed what the session held when the call
    took effect. *)
Lemma c77_closed (sh : sharding) (calls : list ps_call) (sched : list nat) (x : ps_pool) :
  ps_run sh sched (ps_begin calls) = Some x -> Forall returned x.1 ->
  exists l, l ≡ₚ seq 0 (length calls) /\
    (forall k s, ps_get x.2 k s = ps_get (ps_after (ops calls l)) k s) /\
    ps_closed x.2 = ps_closed (ps_after (ops calls l)).
Proof.
  intros H Hr. pose proof (inv_run sh calls sched x H) as [Hn Hb Hlen Hs Hf Hcl Hth].
  exists (order sh sched (ps_begin calls)). split_and!.
  3: { apply set_eq. intros sub. rewrite Hcl. split; [by left|]. intros [?|(t & Ht & Hsub)]; [done|].
       apply (proj1 (Forall_forall _ _) Hr) in Ht as [r ->]. by apply elem_of_nil in Hsub. }
  2: { intros k s. unfold ps_get. by rewrite Hs. }
  apply NoDup_Permutation; [done|apply NoDup_seq|]. intros i. rewrite elem_of_seq. split.
  - intros Hi. apply (proj1 (Forall_forall _ _) Hb) in Hi. lia.
  - intros [_ Hi]. destruct (lookup_lt_is_Some_2 calls i) as [c Hc]; [lia|].
    destruct (lookup_lt_is_Some_2 x.1 i) as [t Ht]; [lia|].
    specialize (Hth i c t Hc Ht). destruct (Forall_lookup_1 _ _ _ _ Hr Ht) as [r ->].
    destruct Hth as (p & Hp & _). by eapply elem_of_list_lookup_2.
Qed.
