(** However the steps of finitely many commands are interleaved, there is a bound on their
    number (C55). *)
From Verif Require Import Bytes BytesFacts Utf8 Value CommandId Request Response Metrics Prog Commands
  Concurrent HistorySpec ConcSpec ProgFacts CommandFacts ConcFacts.
From stdpp Require Import gmap list list_numbers.
From Coq Require Import NArith ZArith Lia.
From Coq Require Import ZifyBool ZifyNat ZifyN.

(** At most [n] steps, where a removal counts [w]: it may send others round the loop of
    [key_or_insert_with] again. *)
Fixpoint costs (w n : nat) (p : prog) : Prop :=
  match p with
  | PRet _ => True
  | PContains _ c => exists m, 1 + m <= n /\ forall b, costs w m (c b)
  | PGet _ c => exists m, 1 + m <= n /\ forall v, costs w m (c v)
  | PInsert _ _ c => exists m, 1 + m <= n /\ costs w m c
  | PRemove _ c => exists m, w + m <= n /\ forall v, costs w m (c v)
  | PKoi _ _ _ c => exists m, 3 + m <= n /\ forall r, costs w m (c r)
  | PKoiIns _ _ _ c => exists m, 2 + m <= n /\ forall r, costs w m (c r)
  | PCounter _ c => exists m, 1 + m <= n /\ forall v, costs w m (c v)
  | PIncr _ _ c => exists m, 1 + m <= n /\ costs w m c
  end.

(** The same in a given state: the loop ends at once if the key is there. *)
Definition left_to_do (w : nat) (s : store) (p : prog) (n : nat) : Prop :=
  match p with
  | PKoi k _ _ c => exists m, (if st_keys s !! k then 1 else 3) + m <= n /\ forall r, costs w m (c r)
  | _ => costs w n p
  end.

Lemma costs_mono w n n' p : n <= n' -> costs w n p -> costs w n' p.
Proof. intros Hn. destruct p; cbn; try done; intros (m0 & Hm & H); exists m0; split; (lia || done). Qed.

Lemma costs_left w s n p : costs w n p -> left_to_do w s p n.
Proof.
  destruct p; cbn; try done. intros (m & Hm & H). exists m. split; [|done].
  destruct (st_keys s !! k); lia.
Qed.

Lemma left_mono w s p n n' : n <= n' -> left_to_do w s p n -> left_to_do w s p n'.
Proof.
  intros Hn. destruct p; cbn; try done; intros (m0 & Hm & H); exists m0; split; (lia || done).
Qed.

(** The other threads *)
Lemma left_other w s s' p n :
  (forall k, is_Some (st_keys s !! k) -> is_Some (st_keys s' !! k)) ->
  left_to_do w s p n -> left_to_do w s' p n.
Proof.
  intros Hk. destruct p; cbn; try done. intros (m & Hm & H). exists m. split; [|done].
  specialize (Hk k). destruct (st_keys s !! k); [destruct (Hk ltac:(done)) as [? ->]; lia|].
  destruct (st_keys s' !! k); lia.
Qed.

Lemma left_removed w s s' p n : left_to_do w s p n -> left_to_do w s' p (2 + n).
Proof.
  intros H. destruct p; cbn in *; try (destruct H as (m0 & Hm & H); exists m0; split; [lia|done]); [done|].
  destruct H as (m & Hm & H). exists m. split; [|done].
  destruct (st_keys s !! k), (st_keys s' !! k); lia.
Qed.

Definition removing (p : prog) : bool := match p with PRemove _ _ => true | _ => false end.

Lemma step_present p s p' s' k :
  pstep p s = Some (p', s') -> removing p = false ->
  is_Some (st_keys s !! k) -> is_Some (st_keys s' !! k).
Proof.
  destruct p as [r|k0 c|k0 c|k0 v c|k0 c|k0 d u c|k0 d u c|m c|dbg m c]; cbn; try done;
    intros H _ Hk.
  - by injection H as <- <-.
  - by injection H as <- <-.
  - injection H as <- <-. rewrite st_keys_with. destruct (decide (k0 = k)) as [->|].
    + by rewrite lookup_insert.
    + by rewrite lookup_insert_ne.
  - destruct (st_keys s !! k0) as [v|]; [|by injection H as <- <-].
    destruct (u v) as [v' r]. injection H as <- <-. rewrite st_keys_with.
    destruct (decide (k0 = k)) as [->|]; [by rewrite lookup_insert|by rewrite lookup_insert_ne].
  - injection H as <- <-. rewrite st_keys_with.
    destruct (decide (k0 = k)) as [->|]; [by rewrite lookup_insert|by rewrite lookup_insert_ne].
  - by injection H as <- <-.
  - destruct (counters_increment _ _ _); by injection H as <- <-.
Qed.

Lemma step_left w p s p' s' n :
  1 <= w -> pstep p s = Some (p', s') -> left_to_do w s p n ->
  exists n', (if removing p then w else 1) + n' <= n /\ left_to_do w s' p' n'.
Proof.
  intros Hw.
  destruct p as [r|k0 c|k0 c|k0 v c|k0 c|k0 d u c|k0 d u c|m c|dbg m c]; cbn; try done; intros Hs.
  - intros (m & Hm & H). injection Hs as <- <-. exists m. split; [lia|]. by apply costs_left.
  - intros (m & Hm & H). injection Hs as <- <-. exists m. split; [lia|]. by apply costs_left.
  - intros (m & Hm & H). injection Hs as <- <-. exists m. split; [lia|]. by apply costs_left.
  - intros (m & Hm & H). injection Hs as <- <-. exists m. split; [lia|]. by apply costs_left.
  - intros (m & Hm & H). destruct (st_keys s !! k0) as [v|].
    + destruct (u v) as [v' r]. injection Hs as <- <-. exists m. split; [lia|]. by apply costs_left.
    + injection Hs as <- <-. exists (2 + m). split; [lia|]. exists m. split; [lia|done].
  - intros (m & Hm & H). injection Hs as <- <-. exists (1 + m). split; [lia|].
    exists m. rewrite st_keys_with, lookup_insert. split; [lia|done].
  - intros (m' & Hm & H). injection Hs as <- <-. exists m'. split; [lia|]. by apply costs_left.
  - intros (m' & Hm & H). destruct (counters_increment _ _ _); injection Hs as <- <-.
    + exists m'. split; [lia|]. by apply costs_left.
    + exists m'. by split; [lia|].
Qed.

(** All threads *)
Lemma others_left w s s' ts ns (add : nat) :
  (forall p n, left_to_do w s p n -> left_to_do w s' p (add + n)) ->
  Forall2 (left_to_do w s) ts ns ->
  exists ns', Forall2 (left_to_do w s') ts ns' /\ sum_list ns' = sum_list ns + length ts * add /\
    forall i n, ns !! i = Some n -> ns' !! i = Some (add + n).
Proof.
  intros Ha H. induction H as [|p n ts ns Hp _ (ns' & IH1 & IH2 & IH3)].
  - exists []. split; [constructor|]. split; [done|]. by intros i n ?.
  - exists ((add + n) :: ns'). split_and!.
    + constructor; [by apply Ha|done].
    + cbn. rewrite IH2. lia.
    + intros [|i] m; cbn; [congruence|apply IH3].
Qed.

Lemma sum_insert (ns : list nat) i (n n' : nat) :
  ns !! i = Some n -> sum_list (<[i := n']> ns) + n = sum_list ns + n'.
Proof.
  revert i. induction ns as [|a ns IH]; intros [|i]; cbn; try done.
  - intros [= ->]. lia.
  - intros H. specialize (IH i H). rewrite <- !Nat.add_assoc. f_equal. exact IH.
Qed.

Lemma pool_step_left w i ts s ts' s' ns :
  2 * length ts + 1 <= w -> pool_step i (ts, s) = Some (ts', s') -> Forall2 (left_to_do w s) ts ns ->
  exists ns', sum_list ns' + 1 <= sum_list ns /\ Forall2 (left_to_do w s') ts' ns'.
Proof.
  intros Hw Hs HF. unfold pool_step in Hs. cbn [fst snd] in Hs.
  destruct (ts !! i) as [p|] eqn:Hp; [|done].
  destruct (pstep p s) as [[p' s1]|] eqn:Hst; [|done]. injection Hs as <- <-.
  destruct (Forall2_lookup_l _ _ _ _ _ HF Hp) as (n & Hn & Hl).
  destruct (step_left w p s p' s1 n ltac:(lia) Hst Hl) as (n' & Hn' & Hl').
  destruct (removing p) eqn:Hr.
  - destruct (others_left w s s1 ts ns 2) as (ns' & H1 & H2 & H3); [|done|].
    { intros q m. apply left_removed. }
    exists (<[i := n']> ns'). split.
    + pose proof (sum_insert ns' i _ n' (H3 _ _ Hn)). lia.
    + by apply Forall2_insert.
  - destruct (others_left w s s1 ts ns 0) as (ns' & H1 & H2 & H3); [|done|].
    { intros q m. cbn. apply left_other. intros k. by eapply step_present. }
    exists (<[i := n']> ns'). split.
    + pose proof (sum_insert ns' i _ n' (H3 _ _ Hn)). lia.
    + by apply Forall2_insert.
Qed.

Lemma pool_step_length i x y : pool_step i x = Some y -> length y.1 = length x.1.
Proof.
  unfold pool_step. destruct (x.1 !! i); [|done]. destruct (pstep _ _) as [[p' s]|]; [|done].
  intros [= <-]. cbn. apply insert_length.
Qed.

Lemma pool_run_left w sched ts s ts' s' ns :
  2 * length ts + 1 <= w -> pool_run sched (ts, s) = Some (ts', s') -> Forall2 (left_to_do w s) ts ns ->
  length sched <= sum_list ns.
Proof.
  revert ts s ns. induction sched as [|i sched IH]; intros ts s ns Hw Hr HF; cbn in Hr |- *; [lia|].
  destruct (pool_step i (ts, s)) as [[ts1 s1]|] eqn:Hs; [|done].
  destruct (pool_step_left w i ts s ts1 s1 ns Hw Hs HF) as (ns' & Hn & HF').
  apply pool_step_length in Hs. cbn in Hs.
  specialize (IH ts1 s1 ns' ltac:(lia) Hr HF'). lia.
Qed.

(** The commands *)
Lemma costs_guarded w n e k p : costs w n p -> costs w n (guarded e k p).
Proof. unfold guarded. destruct (starts_with _ _); [done|]. by destruct (debug e && _). Qed.

Lemma costs_koi w n e k d u : 3 <= n -> costs w n (key_or_insert_with e k d u).
Proof. intros. apply costs_guarded. exists 0. split; [lia|done]. Qed.

Lemma costs_read {A} w n e res k (f : value -> option A) c : 1 <= n -> costs w n (read_variant e res k f c).
Proof.
  intros. apply costs_guarded. exists 0. split; [lia|]. intros [v|]; [|done]. by destruct (f v).
Qed.

Lemma costs_exist w l c : (forall b, costs w 0 (c b)) -> costs w (length l) (all_exist l c).
Proof.
  intros H. induction l as [|k l IH]; cbn; [apply H|]. exists (length l). split; [lia|].
  intros []; [done|]. eapply costs_mono; [|apply H]. lia.
Qed.

Lemma costs_are w t l c : (forall b, costs w 0 (c b)) -> costs w (length l) (all_are t l c).
Proof.
  intros H. induction l as [|k l IH]; cbn; [apply H|]. exists (length l). split; [lia|]. intros v.
  destruct (match v with Some _ => _ | None => _ end); [done|]. eapply costs_mono; [|apply H]. lia.
Qed.

Lemma costs_stats w l m c : (forall m, costs w 0 (c m)) -> costs w (length l) (stats_loop l m c).
Proof.
  intros H. revert m. induction l as [|x l IH]; intros m; cbn; [apply H|]. exists (length l).
  split; [lia|]. intros [n|]; [destruct (_ <? _)%Z|]; apply IH.
Qed.

Lemma costs_set {A} w n e res k d (f : value -> option A) new b o : w + 3 <= n ->
  costs w n (set_with e res k d f new b o).
Proof. intros. exists 3. split; [lia|]. intros _. apply costs_koi. lia. Qed.

Ltac costs_go :=
  match goal with
  | |- costs _ _ (key_or_insert_with _ _ _ _) => apply costs_koi; lia
  | |- costs _ _ (read_variant _ _ _ _ _) => apply costs_read; lia
  | |- costs _ _ (set_with _ _ _ _ _ _ _ _) => apply costs_set; lia
  | |- costs _ _ (PRet _) => exact I
  | |- costs _ _ (fail _ _) => exact I
  | |- costs _ _ (key_ref _ _ _) =>
    apply costs_guarded; exists 0; split; [lia|intros [|]]
  | |- costs _ ?n (PGet _ _) => exists (n - 1); split; [lia|intros [|]]
  | |- costs _ ?n (PContains _ _) => exists (n - 1); split; [lia|intros [|]]
  | |- costs ?w ?n (PRemove _ _) => exists (n - w); split; [lia|intros [|]]
  | |- costs _ ?n (PInsert _ _ _) => exists (n - 1); split; [lia|]
  | |- costs _ _ (match ?x with _ => _ end) => destruct x eqn:?
  end.

Lemma command_costs w e req res : 1 <= w ->
  costs w (w + 5 + N.to_nat (arg_count req)) (command_prog e req res).
Proof.
  intros Hw. set (n := N.to_nat (arg_count req)).
  unfold command_prog. destruct (r_command req) eqn:Hc;
    unfold cmd_append, cmd_decrement, cmd_decrement_by, cmd_delete, cmd_echo, cmd_exists, cmd_get,
      cmd_increment, cmd_increment_by, cmd_is, cmd_keys, cmd_length, cmd_rename, cmd_set, cmd_stats,
      cmd_type, resolve_type, append_bytes, append_list, append_string, increment_float_by,
      increment_int_by, set_typed; repeat costs_go.
  all: try (eapply costs_mono; [|by apply costs_stats]; cbn; lia).
  all: match goal with H : args_all _ = Some _ |- _ => apply args_all_length in H end.
  all: eapply costs_mono; [|(by apply costs_exist) || by apply costs_are]; lia.
Qed.

Lemma costs_pbind w n p f : costs w n p -> (forall r, costs w 1 (f r)) -> costs w (S n) (pbind p f).
Proof.
  intros Hp Hf. revert n Hp.
  induction p as [r|k c IH|k c IH|k v c IH|k c IH|k d u c IH|k d u c IH|m c IH|dbg m c IH];
    intros n; cbn; [intros _; eapply costs_mono; [|apply Hf]; lia|..]; intros (x & Hx & H).
  all: exists (S x); split; [lia|]; intros; apply IH; apply H.
Qed.

Lemma dispatch_costs w e req res : 1 <= w ->
  costs w (w + 6 + N.to_nat (arg_count req)) (dispatch_prog e req res).
Proof.
  intros Hw. unfold dispatch_prog.
  replace (w + 6 + N.to_nat (arg_count req)) with (S (w + 5 + N.to_nat (arg_count req))) by lia.
  apply costs_pbind; [by apply command_costs|].
  intros [b|err b|]; cbn; eauto.
Qed.

Lemma c55_bounded cs s0 sched ts s :
  reaches cs s0 sched ts s ->
  (lenN sched <= lenN cs * (2 * lenN cs + 7) + fold_right (fun c n => arg_count (c_req c) + n) 0 cs)%N.
Proof.
  intros Hr. set (w := 2 * length cs + 1).
  pose proof (pool_run_left w sched (start cs s0).1 s0 ts s
    (map (fun c => w + 6 + N.to_nat (arg_count (c_req c))) cs)) as H.
  assert (Hsum : N.of_nat (sum_list (map (fun c => w + 6 + N.to_nat (arg_count (c_req c))) cs))
    = (lenN cs * (2 * lenN cs + 7) + fold_right (fun c n => arg_count (c_req c) + n) 0 cs)%N).
  { assert (Hg : forall cs : list call, N.of_nat (sum_list (map (fun c => w + 6 + N.to_nat (arg_count (c_req c))) cs))
      = (lenN cs * N.of_nat (w + 6) + fold_right (fun c n => arg_count (c_req c) + n) 0 cs)%N).
    { induction cs0 as [|c cs0 IH]; [done|]. cbn [map sum_list fold_right].
      rewrite lenN_cons. cbn in IH |- *. lia. }
    rewrite Hg. f_equal. f_equal. unfold w, lenN. lia. }
  rewrite <- Hsum. unfold lenN. cut (length sched <= sum_list (map (fun c => w + 6 + N.to_nat (arg_count (c_req c))) cs)); [lia|].
  apply H.
  - cbn. rewrite map_length. unfold w. lia.
  - exact Hr.
  - unfold start. cbn [fst]. assert (Hw : 1 <= w) by (unfold w; lia). clearbody w. clear -Hw.
    induction cs as [|c cs IH]; constructor; [|done]. apply costs_left. by apply dispatch_costs.
Qed.

Lemma c55_stops ts s :
  (forall i, pool_step i (ts, s) = None) -> exists rs, all_returned ts rs.
Proof.
  intros H. induction ts as [|p ts IH].
  - by exists [].
  - destruct IH as [rs Hrs].
    { intros i. specialize (H (S i)). unfold pool_step in *. cbn in *.
      destruct (ts !! i) as [q|]; [|done]. by destruct (pstep q s) as [[? ?]|]. }
    specialize (H 0). unfold pool_step in H. cbn in H.
    destruct p as [r| | | | |k d u c| | |dbg m c]; cbn in H; try done.
    + exists (r :: rs). unfold all_returned in *. cbn. by rewrite Hrs.
    + destruct (st_keys s !! k); [by destruct (u _)|done].
    + by destruct (counters_increment _ _ _).
Qed.
