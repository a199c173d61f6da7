(** Sequences of calls end: there is a bound on the number of steps, and under a fair scheduler
    every call returns, also with the locks of the store (C90). *)
From Verif Require Import Bytes BytesFacts Utf8 Value CommandId Request Response Metrics Prog Commands
  Concurrent HistorySpec ConcSpec ProgFacts CommandFacts ConcFacts ConcBound Scripts LinSpec LinFacts
  Locks LockSpec LockFacts LockScripts LockScriptSpec LockScriptFacts FairSpec.
From stdpp Require Import gmap list list_numbers.
From Coq Require Import NArith ZArith Lia.
From Coq Require Import ZifyBool ZifyNat ZifyN.

(** ** Atomic steps *)

Definition ahead (w : nat) (l : list call) : nat :=
  sum_list (map (fun c => w + 8 + N.to_nat (arg_count (c_req c))) l).

Definition now_left (w : nat) (s : store) (o : option prog) (a : nat) : Prop :=
  match o with None => True | Some p => exists m, S m <= a /\ left_to_do w s p m end.

Definition client_left (w : nat) (s : store) (x : client) (n : nat) : Prop :=
  exists a, now_left w s (cl_now x) a /\ a + ahead w (cl_todo x) <= n.

Definition removes (x : client) : bool :=
  match cl_now x with Some p => removing p | None => false end.

Lemma client_other w s s' x n :
  (forall k, is_Some (st_keys s !! k) -> is_Some (st_keys s' !! k)) ->
  client_left w s x n -> client_left w s' x n.
Proof.
  intros Hk (a & Hn & Ha). exists a. split; [|done]. unfold now_left in *.
  destruct (cl_now x); [|done]. destruct Hn as (m & Hm & Hl). exists m. split; [done|].
  by eapply left_other.
Qed.

Lemma client_removed w s s' x n : client_left w s x n -> client_left w s' x (2 + n).
Proof.
  intros (a & Hn & Ha). exists (2 + a). split; [|lia]. unfold now_left in *.
  destruct (cl_now x); [|done]. destruct Hn as (m & Hm & Hl). exists (2 + m). split; [lia|].
  by eapply left_removed.
Qed.

Lemma client_step_left w x s x' s' n :
  1 <= w -> client_step x s = Some (x', s') -> client_left w s x n ->
  exists n', (if removes x then w else 1) + n' <= n /\ client_left w s' x' n'.
Proof.
  intros Hw Hs (a & Hn & Ha). unfold client_step in Hs. unfold removes.
  destruct x as [dn [p|] td]; cbn [cl_now cl_todo cl_done] in *.
  - destruct Hn as (m & Hm & Hl).
    assert (Hp : (exists r, p = PRet r /\ x' = Client (dn ++ [r]) None td /\ s' = s) \/
      exists p', pstep p s = Some (p', s') /\ x' = Client dn (Some p') td).
    { destruct p; try (injection Hs as <- <-; left; by eauto);
      right; match type of Hs with context [pstep ?q s] => destruct (pstep q s) as [[p' s1]|] end;
      try done; injection Hs as <- <-; by eauto. }
    destruct Hp as [(r & -> & -> & ->)|(p' & Hp & ->)].
    + exists (ahead w td). cbn [removing]. split; [lia|]. exists 0. split; [done|]. cbn [cl_todo]. lia.
    + destruct (step_left w p s p' s' m Hw Hp Hl) as (m' & Hm' & Hl').
      exists (S m' + ahead w td). split; [lia|]. exists (S m'). cbn [cl_now cl_todo now_left]. split; [|lia]. by exists m'.
  - destruct td as [|c td]; [done|]. injection Hs as <- <-.
    exists (S (w + 6 + N.to_nat (arg_count (c_req c))) + ahead w td).
    cbn in Ha |- *. unfold ahead in *. split; [lia|].
    exists (S (w + 6 + N.to_nat (arg_count (c_req c)))). cbn. split; [|lia].
    eexists. split; [done|]. apply costs_left. by apply dispatch_costs.
Qed.

Lemma client_step_present x s x' s' k :
  client_step x s = Some (x', s') -> removes x = false ->
  is_Some (st_keys s !! k) -> is_Some (st_keys s' !! k).
Proof.
  unfold client_step, removes. destruct x as [dn [p|] td]; cbn [cl_now cl_todo].
  - intros Hs Hr Hk.
    assert (Hp : s' = s \/ exists p', pstep p s = Some (p', s')).
    { destruct p; try (injection Hs as <- <-; by left);
      right; match type of Hs with context [pstep ?q s] => destruct (pstep q s) as [[p' s1]|] end;
      try done; injection Hs as <- <-; by eauto. }
    destruct Hp as [->|[p' Hp]]; [done|]. by eapply step_present.
  - destruct td; [done|]. by intros [= <- <-].
Qed.

Lemma clients_left w s s' xs ns (add : nat) :
  (forall p n, client_left w s p n -> client_left w s' p (add + n)) ->
  Forall2 (client_left w s) xs ns ->
  exists ns', Forall2 (client_left w s') xs ns' /\ sum_list ns' = sum_list ns + length xs * add /\
    forall i n, ns !! i = Some n -> ns' !! i = Some (add + n).
Proof.
  intros Ha H. induction H as [|p n ts ns Hp _ (ns' & IH1 & IH2 & IH3)].
  - exists []. split; [constructor|]. split; [done|]. by intros i n ?.
  - exists ((add + n) :: ns'). split_and!.
    + constructor; [by apply Ha|done].
    + cbn. rewrite IH2. lia.
    + intros [|i] m; cbn; [congruence|apply IH3].
Qed.

(** What is left of all clients. *)
Definition sys_left (w : nat) (x : system) (n : nat) : Prop :=
  exists ns, Forall2 (client_left w x.2) x.1 ns /\ sum_list ns <= n.

Lemma sys_step_left w i x x' n :
  2 * length x.1 + 1 <= w -> sys_step i x = Some x' -> sys_left w x n ->
  exists n', S n' <= n /\ sys_left w x' n'.
Proof.
  destruct x as [cs s]. cbn [fst]. intros Hw Hs (ns & HF & Hsum). cbn [fst snd] in *. unfold sys_step in Hs. cbn [fst snd] in Hs.
  destruct (cs !! i) as [p|] eqn:Hp; [|done].
  destruct (client_step p s) as [[p' s1]|] eqn:Hst; [|done]. injection Hs as <-.
  destruct (Forall2_lookup_l _ _ _ _ _ HF Hp) as (m & Hn & Hl).
  destruct (client_step_left w p s p' s1 m ltac:(lia) Hst Hl) as (n' & Hn' & Hl').
  destruct (removes p) eqn:Hr.
  - destruct (clients_left w s s1 cs ns 2) as (ns' & H1 & H2 & H3); [|done|].
    { intros q k. apply client_removed. }
    pose proof (sum_insert ns' i _ n' (H3 _ _ Hn)).
    exists (sum_list (<[i := n']> ns')). split; [lia|]. exists (<[i := n']> ns'). split; [|done].
    by apply Forall2_insert.
  - destruct (clients_left w s s1 cs ns 0) as (ns' & H1 & H2 & H3); [|done|].
    { intros q k. cbn. apply client_other. intros k'. by eapply client_step_present. }
    pose proof (sum_insert ns' i _ n' (H3 _ _ Hn)).
    exists (sum_list (<[i := n']> ns')). split; [lia|]. exists (<[i := n']> ns'). split; [|done].
    by apply Forall2_insert.
Qed.

Lemma sys_step_length i x y : sys_step i x = Some y -> length y.1 = length x.1.
Proof.
  unfold sys_step. destruct (x.1 !! i); [|done]. destruct (client_step _ _) as [[p' s]|]; [|done].
  intros [= <-]. cbn. apply insert_length.
Qed.

Lemma sys_run_left w sched x y n :
  2 * length x.1 + 1 <= w -> sys_run sched x = Some y -> sys_left w x n ->
  exists n', length sched + n' <= n /\ sys_left w y n' /\ length y.1 = length x.1.
Proof.
  revert x n. induction sched as [|i sched IH]; intros x n Hw Hr HF; cbn in Hr |- *.
  - injection Hr as ->. by exists n.
  - destruct (sys_step i x) as [x1|] eqn:Hs; [|done].
    destruct (sys_step_left w i x x1 n Hw Hs HF) as (n1 & Hn & HF').
    apply sys_step_length in Hs.
    destruct (IH x1 n1 ltac:(lia) Hr HF') as (n' & Hn' & Hl & Hlen). exists n'. split_and!; [lia|done|lia].
Qed.

Definition call_bound (clients : nat) (scripts : list (list call)) : nat :=
  sum_list (map (ahead (2 * clients + 1)) scripts).

Lemma begin_left scripts s0 :
  sys_left (2 * length scripts + 1) (begin scripts s0) (call_bound (length scripts) scripts).
Proof.
  unfold call_bound. set (w := 2 * length scripts + 1). clearbody w.
  exists (map (ahead w) scripts). split; [|done]. cbn [begin fst snd].
  induction scripts as [|h scripts IH]; constructor; [|done]. exists 0. split; [done|]. cbn [cl_todo]. lia.
Qed.

Lemma begin_wide scripts s0 : 2 * length (begin scripts s0).1 + 1 <= 2 * length scripts + 1.
Proof. cbn [begin fst]. rewrite map_length. lia. Qed.

Lemma begin_run_left scripts s0 sched y :
  sys_run sched (begin scripts s0) = Some y ->
  exists n', length sched + n' <= call_bound (length scripts) scripts /\
    sys_left (2 * length scripts + 1) y n' /\ length y.1 = length scripts.
Proof.
  intros Hr. destruct (sys_run_left (2 * length scripts + 1) _ _ _ (call_bound (length scripts) scripts)
    (begin_wide scripts s0) Hr (begin_left scripts s0)) as (n' & Hn & Hl & Hlen).
  exists n'. split_and!; [done..|]. rewrite Hlen. cbn. apply map_length.
Qed.

Lemma ahead_N w l : N.of_nat (ahead w l) =
  (lenN l * N.of_nat (w + 8) + fold_right (fun c n => arg_count (c_req c) + n) 0 l)%N.
Proof.
  unfold ahead. induction l as [|c l IH]; [done|]. cbn [map sum_list fold_right].
  rewrite lenN_cons. cbn in IH |- *. lia.
Qed.

Lemma call_bound_N (scripts : list (list call)) :
  N.of_nat (call_bound (length scripts) scripts) =
  (lenN (concat scripts) * (2 * lenN scripts + 9) +
     fold_right (fun c n => arg_count (c_req c) + n) 0 (concat scripts))%N.
Proof.
  unfold call_bound. replace (2 * lenN scripts + 9)%N with (N.of_nat (2 * length scripts + 1 + 8)) by (unfold lenN; lia).
  set (w := 2 * length scripts + 1). clearbody w.
  induction scripts as [|h scripts IH]; [done|]. cbn [map sum_list concat].
  assert (Hf : forall (a b : list call), fold_right (fun c n => arg_count (c_req c) + n)%N 0%N (a ++ b) =
    (fold_right (fun c n => arg_count (c_req c) + n) 0 a + fold_right (fun c n => arg_count (c_req c) + n) 0 b)%N).
  { intros a b. induction a as [|c a IHa]; cbn [fold_right app]; [lia|]. rewrite IHa. lia. }
  rewrite Hf, lenN_app. pose proof (ahead_N w h). cbn in IH |- *. lia.
Qed.

Lemma c90_bounded scripts s0 sched x :
  sys_run sched (begin scripts s0) = Some x ->
  (lenN sched <= lenN (concat scripts) * (2 * lenN scripts + 9) +
     fold_right (fun c n => arg_count (c_req c) + n) 0 (concat scripts))%N.
Proof.
  intros Hr. rewrite <-call_bound_N.
  destruct (begin_run_left _ _ _ _ Hr) as (n' & Hn & _). unfold lenN. lia.
Qed.

(** ** With the locks *)

Lemma sinv_begin sh scripts s0 : sinv sh (lbegin scripts s0) (begin scripts s0).
Proof.
  destruct (lsys_run_sim sh scripts s0 [] (lbegin scripts s0) eq_refl) as (sched & f & Hf & _ & Hsub & H).
  destruct (H 0 (lbegin scripts s0) ltac:(cbn; lia) eq_refl) as (y & Hy & Hinv).
  inversion Hsub; subst. rewrite take_nil in Hy. by injection Hy as <-.
Qed.

Lemma lsys_run_count sh scripts s0 lsched x :
  lsys_run sh lsched (lbegin scripts s0) = Some x ->
  exists (sched : list nat) y, sys_run sched (begin scripts s0) = Some y /\ sinv sh x y /\
    length lsched + sumt early x <= 4 * length sched + sumt late x + mids lsched.
Proof.
  revert x. induction lsched as [|[i mid] lsched IH] using rev_ind; intros x Hr.
  - injection Hr as <-. exists [], (begin scripts s0). split_and!; [done|apply sinv_begin|].
    assert (sumt early (lbegin scripts s0) = 0); [|unfold mids; cbn [length map sum_list]; lia].
    unfold sumt, lbegin. cbn [fst]. rewrite !map_map. induction scripts; [done|]. cbn in *. lia.
  - rewrite lsys_run_app in Hr. destruct (lsys_run sh lsched (lbegin scripts s0)) as [x1|] eqn:Hr1; [|done].
    destruct (IH x1 eq_refl) as (sched & y & Hy & Hinv & Hc). cbn in Hr.
    destruct (lsys_step sh i mid x1) as [x2|] eqn:Hs; [|done]. injection Hr as ->.
    rewrite app_length, mids_snoc. cbn [length].
    destruct (lsys_step_sim sh i mid x1 y x Hinv Hs) as [(Hinv' & Hc' & _)|(y1 & Hy1 & Hinv' & Hc')].
    + exists sched, y. split_and!; [done..|lia].
    + exists (sched ++ [i]), y1. split_and!; [|done|rewrite app_length; cbn; lia].
      rewrite sys_run_app, Hy. cbn. by rewrite Hy1.
Qed.

Lemma c90_lock_bounded sh scripts s0 lsched x :
  lsys_run sh lsched (lbegin scripts s0) = Some x ->
  (lenN lsched <= 4 * (lenN (concat scripts) * (2 * lenN scripts + 9) +
     fold_right (fun c n => arg_count (c_req c) + n) 0 (concat scripts)) + 2 * lenN scripts
     + fold_right (fun x n => lenN x.2 + n) 0 lsched)%N.
Proof.
  intros Hr. destruct (lsys_run_count _ _ _ _ _ Hr) as (sched & y & Hy & Hinv & Hc).
  pose proof (c90_bounded _ _ _ _ Hy) as Hb.
  assert (Hl : sumt late x <= 2 * length x.1).
  { unfold sumt. clear. induction x.1 as [|cl l IH]; [done|]. cbn in *. destruct (lc_thread cl); cbn; lia. }
  assert (Hn : length x.1 = length scripts).
  { rewrite <-(map_length eclient). destruct Hinv as [<- _].
    destruct (begin_run_left _ _ _ _ Hy) as (n' & _ & _ & Hlen). exact Hlen. }
  assert (Hm : N.of_nat (mids lsched) = fold_right (fun x n => lenN x.2 + n)%N 0%N lsched).
  { clear. unfold mids. induction lsched as [|[i m] lsched IH]; [done|].
    cbn [map sum_list fold_right fst snd] in *. rewrite <- IH. unfold lenN. cbn. lia. }
  rewrite <-Hm. unfold lenN in *. lia.
Qed.

Lemma c90_stops sh scripts s0 lsched x :
  lsys_run sh lsched (lbegin scripts s0) = Some x ->
  (forall i mid, lsys_step sh i mid x = None) -> Forall lfinished x.1.
Proof.
  intros Hr Hstop. apply Forall_lookup. intros i cl Hcl.
  assert (Hfree : Forall (lfree sh) x.1).
  { apply Forall_lookup. intros j c Hc. unfold lfree, no_lock.
    destruct (holding sh (lc_thread c)) eqn:Hh; [|done].
    destruct (c89_no_deadlock _ _ _ _ _ _ _ Hr Hc) as [H _]. unfold lfree, no_lock in H.
    destruct (H ltac:(congruence) []) as [y Hy]. by rewrite Hstop in Hy. }
  destruct (c89_no_deadlock _ _ _ _ _ _ _ Hr Hcl) as [_ H].
  destruct (lc_now cl) eqn:Hnow; [|destruct (lc_todo cl) eqn:Htd; [by split|]];
    destruct (H Hfree ltac:(intros [? ?]; congruence) []) as [y Hy]; by rewrite Hstop in Hy.
Qed.

(** *** Fair schedulers *)

Global Instance lfinished_dec (x : lclient) : Decision (lfinished x).
Proof.
  unfold lfinished. destruct (lc_now x); [by right; intros [? ?]|].
  destruct (lc_todo x); [by left|by right; intros [? ?]].
Defined.

Global Instance lfree_dec sh (x : lclient) : Decision (lfree sh x).
Proof. unfold lfree, no_lock. destruct (holding sh (lc_thread x)); [by right|by left]. Defined.

(** No infinite sequence of steps, however the values change in between. *)
Lemma steps_end sh w : forall n P E x y,
  2 * length x.1 + 1 <= w -> sinv sh x y -> sys_left w y n -> sumt phase x <= P -> sumt early x <= E ->
  Acc (fun b a => exists i mid, lsys_step sh i mid a = Some b) x.
Proof.
  induction n as [n IHn] using (well_founded_induction lt_wf).
  induction P as [P IHP] using (well_founded_induction lt_wf).
  induction E as [E IHE] using (well_founded_induction lt_wf).
  intros x y Hw Hinv Hl HP HE. constructor. intros x1 (i & mid & Hs).
  assert (Hlen : length x1.1 = length x.1).
  { unfold lsys_step in Hs. destruct (x.1 !! i) as [cl|]; [|done].
    repeat match type of Hs with
    | match ?d with _ => _ end = Some _ => destruct d; try done
    | (if ?d then _ else _) = Some _ => destruct d; try done
    end; injection Hs as <-; cbn; apply insert_length. }
  assert (Hly : length y.1 = length x.1) by (destruct Hinv as [-> _]; apply map_length).
  destruct (lsys_step_sim sh i mid x y x1 Hinv Hs) as [(Hinv' & _ & [Hp|[Hp He]])|(y1 & Hy1 & Hinv' & _)].
  - by eapply (IHP (sumt phase x1) ltac:(lia) (sumt early x1) x1 y ltac:(lia)).
  - apply (IHE (sumt early x1) ltac:(lia) x1 y); (lia || done).
  - destruct (sys_step_left w i y y1 n ltac:(lia) Hy1 Hl) as (n' & Hn' & Hl').
    apply (IHn n' ltac:(lia) (sumt phase x1) (sumt early x1) x1 y1); (lia || done).
Qed.

Lemma tries_S sh f n x : tries sh f (S n) x = tries sh (fun m => f (S m)) n (try sh (f 0) x).
Proof. done. Qed.

Lemma tries_add sh f n m x : tries sh f (n + m) x = tries sh (fun k => f (n + k)) m (tries sh f n x).
Proof. revert f x. induction n as [|n IH]; intros f x; [done|]. cbn. by rewrite IH. Qed.

Lemma fair_shift (k : nat) n (f : nat -> nat * list value) : fair k f -> fair k (fun m => f (n + m)).
Proof.
  intros H i Hi m. destruct (H i Hi (n + m)) as (m' & Hm & Hf). exists (m' - n). split; [lia|].
  by replace (n + (m' - n)) with m' by lia.
Qed.

Lemma first_move sh f n x :
  (exists m x', m <= n /\ tries sh f m x = x /\ lsys_step sh (f m).1 (f m).2 x = Some x') \/
  tries sh f (S n) x = x /\ forall m, m <= n -> lsys_step sh (f m).1 (f m).2 x = None.
Proof.
  revert f. induction n as [|n IH]; intros f.
  - cbn. unfold try. destruct (lsys_step sh (f 0).1 (f 0).2 x) as [x'|] eqn:E.
    + left. by exists 0, x'.
    + right. split; [done|]. intros m Hm. by replace m with 0 by lia.
  - destruct (lsys_step sh (f 0).1 (f 0).2 x) as [x'|] eqn:E.
    + left. exists 0, x'. split_and!; [lia|done|done].
    + assert (Ht : try sh (f 0) x = x) by (unfold try; by rewrite E).
      destruct (IH (fun m => f (S m))) as [(m & x' & Hm & Hx & Hs)|[Hx Hn]].
      * left. exists (S m), x'. split_and!; [lia| |done]. by rewrite tries_S, Ht.
      * right. split; [by rewrite tries_S, Ht|]. intros [|m] Hm; [done|]. apply (Hn m). lia.
Qed.

Lemma fair_ends sh scripts s0 x :
  Acc (fun b a => exists i mid, lsys_step sh i mid a = Some b) x ->
  forall lsched f, lsys_run sh lsched (lbegin scripts s0) = Some x -> fair (length scripts) f ->
  exists n, Forall lfinished (tries sh f n x).1.
Proof.
  induction 1 as [x _ IH]. intros lsched f Hr Hf.
  destruct (decide (Forall lfinished x.1)) as [Hfin|Hnot].
  { by exists 0. }
  (* someone can move *)
  assert (Hmove : exists i, i < length scripts /\ forall mid, is_Some (lsys_step sh i mid x)).
  { assert (Hlen : length x.1 = length scripts).
    { destruct (lsys_run_count _ _ _ _ _ Hr) as (sched & y & Hy & [Hi _] & _).
      rewrite <-(map_length eclient), <-Hi.
      destruct (begin_run_left _ _ _ _ Hy) as (n' & _ & _ & Hlen). exact Hlen. }
    destruct (decide (Forall (lfree sh) x.1)) as [Hfree|Hbusy].
    - apply not_Forall_Exists in Hnot; [|intros ?; apply lfinished_dec].
      apply Exists_exists in Hnot as (cl & Hcl & Hn). apply elem_of_list_lookup in Hcl as [i Hcl].
      exists i. split; [apply lookup_lt_Some in Hcl; lia|]. intros mid.
      destruct (c89_no_deadlock _ _ _ _ _ _ _ Hr Hcl) as [_ H]. destruct (H Hfree Hn mid) as [y Hy]. by eexists.
    - apply not_Forall_Exists in Hbusy; [|intros ?; apply lfree_dec].
      apply Exists_exists in Hbusy as (cl & Hcl & Hn). apply elem_of_list_lookup in Hcl as [i Hcl].
      exists i. split; [apply lookup_lt_Some in Hcl; lia|]. intros mid.
      destruct (c89_no_deadlock _ _ _ _ _ _ _ Hr Hcl) as [H _]. destruct (H Hn mid) as [y Hy]. by eexists. }
  destruct Hmove as (i & Hi & Hmove). destruct (Hf i Hi 0) as (n & _ & Hn).
  destruct (first_move sh f n x) as [(m & x' & Hm & Hx & Hs)|[_ Hno]].
  - assert (Hr' : lsys_run sh (lsched ++ [f m]) (lbegin scripts s0) = Some x').
    { rewrite lsys_run_app, Hr. cbn. destruct (f m) as [j mid]. cbn in Hs. by rewrite Hs. }
    destruct (IH x' ltac:(eauto) _ (fun k => f (S m + k)) Hr' (fair_shift _ _ _ Hf)) as [n' Hn'].
    exists (S m + n'). rewrite tries_add.
    assert (tries sh f (S m) x = x') as ->; [|done].
    replace (S m) with (m + 1) by lia. rewrite tries_add, Hx. cbn. rewrite Nat.add_0_r. unfold try. by rewrite Hs.
  - specialize (Hno n ltac:(lia)). rewrite Hn in Hno. destruct (Hmove (f n).2) as [y Hy]. congruence.
Qed.

Lemma c90_fair sh scripts s0 f :
  fair (length scripts) f -> exists n, Forall lfinished (tries sh f n (lbegin scripts s0)).1.
Proof.
  intros Hf. eapply (fair_ends sh scripts s0 _ _ []); [done|done].
  Unshelve. eapply (steps_end sh (2 * length scripts + 1)); [|apply sinv_begin|apply begin_left|done|done].
  cbn. rewrite map_length. lia.
Qed.
