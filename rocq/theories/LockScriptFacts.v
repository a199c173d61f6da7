(** Sequences of calls on the store with its locks do what they do on the store with atomic steps
    (C89), so what holds of every schedule of the steps holds with the locks (C74, C85 - C88). *)
From Verif Require Import Bytes BytesFacts Value CommandId Request Response Metrics Prog Commands
  Concurrent HistorySpec ConcSpec ProgFacts CommandFacts ConcFacts Scripts LinSpec LinFacts KeyLinSpec
  KeyLin KeyLinFacts Locks LockSpec LockFacts LockScripts LockScriptSpec.
From stdpp Require Import gmap list list_numbers.
From Coq Require Import NArith ZArith Lia.
From Coq Require Import ZifyBool ZifyNat ZifyN.

(** The client of [Scripts]. *)
Definition eclient (x : lclient) : client :=
  Client (lc_done x) (match lc_now x with Some t => Some (erase t) | None => None end) (lc_todo x).

Definition sinv (sh : shards) (x : lsystem) (y : system) : Prop :=
  y.1 = map eclient x.1 /\
  linv sh (map lc_thread x.1) x.2 (map erase (map lc_thread x.1)) y.2.

Lemma linv_idle sh lts s ts s' i p q :
  linv sh lts s ts s' -> lts !! i = Some (TIdle p) ->
  linv sh (<[i := TIdle q]> lts) s (map erase (<[i := TIdle q]> lts)) s'.
Proof.
  intros Hi Ht. pose proof (lookup_lt_Some _ _ _ Ht) as Hlt. split.
  - done.
  - apply Hi.
  - intros k Hk. apply (li_keys _ _ _ _ _ Hi). intros j tj Htj.
    destruct (decide (j = i)) as [->|Hne].
    + rewrite Ht in Htj. by injection Htj as <-.
    + apply (Hk j). by rewrite list_lookup_insert_ne.
  - intros j p' v mid Hj. destruct (decide (j = i)) as [->|Hne].
    + by rewrite list_lookup_insert in Hj.
    + rewrite list_lookup_insert_ne in Hj by done. by eapply Hi.
  - intros j p' Hj. destruct (decide (j = i)) as [->|Hne].
    + by rewrite list_lookup_insert in Hj.
    + rewrite list_lookup_insert_ne in Hj by done. by eapply Hi.
  - intros j1 j2 t1 t2 a b Hne H1 H2 Ha Hb.
    destruct (decide (j1 = i)) as [->|N1].
    + rewrite list_lookup_insert in H1 by done. by injection H1 as <-.
    + rewrite list_lookup_insert_ne in H1 by done. destruct (decide (j2 = i)) as [->|N2].
      * rewrite list_lookup_insert in H2 by done. by injection H2 as <-.
      * rewrite list_lookup_insert_ne in H2 by done. by eapply (li_excl _ _ _ _ _ Hi j1 j2).
Qed.

Lemma map_insert {A B} (f : A -> B) (l : list A) i x : map f (<[i := x]> l) = <[i := f x]> (map f l).
Proof. apply (list_fmap_insert f). Qed.

Lemma map_lookup {A B} (f : A -> B) (l : list A) i x : l !! i = Some x -> map f l !! i = Some (f x).
Proof. intros H. change (map f l) with (f <$> l). by rewrite list_lookup_fmap, H. Qed.

Lemma lsys_step_thread sh i mid lcs s cl t :
  lcs !! i = Some cl -> lc_now cl = Some t -> (forall r, t <> TIdle (PRet r)) ->
  lsys_step sh i mid (lcs, s) =
  match lstep sh i mid (map lc_thread lcs, s) with
  | Some (lts, s1) =>
    match lts !! i with
    | Some t' => Some (<[i := LClient (lc_done cl) (Some t') (lc_todo cl)]> lcs, s1)
    | None => None
    end
  | None => None
  end.
Proof.
  intros Hcl Hnow Hret. pose proof (lookup_lt_Some _ _ _ Hcl) as Hlt.
  unfold lsys_step, lstep. cbn [fst snd]. rewrite Hcl, Hnow, (map_lookup lc_thread _ _ _ Hcl).
  assert (lc_thread cl = t) as -> by (unfold lc_thread; by rewrite Hnow).
  assert (Hi : forall t' (s1 : store), match (<[i := t']> (map lc_thread lcs)) !! i with
    | Some t' => Some (<[i := LClient (lc_done cl) (Some t') (lc_todo cl)]> lcs, s1) | None => None end
    = Some (<[i := LClient (lc_done cl) (Some t') (lc_todo cl)]> lcs, s1)).
  { intros t' s1. rewrite list_lookup_insert; [done|]. by rewrite map_length. }
  assert (E : forall (g : bool) t, (if g then
      match lact sh t s mid with
      | Some (t', s0) => Some (<[i:=LClient (lc_done cl) (Some t') (lc_todo cl)]> lcs, s0)
      | None => None end else None) =
    match (if g then match lact sh t s mid with
             | Some (t', s0) => Some (<[i:=t']> (map lc_thread lcs), s0) | None => None end else None) with
    | Some (lts, s1) => match lts !! i with
      | Some t' => Some (<[i := LClient (lc_done cl) (Some t') (lc_todo cl)]> lcs, s1)
      | None => None end
    | None => None end).
  { intros g u. destruct g; [|done]. destruct (lact sh u s mid) as [[t' s1]|]; [|done]. by rewrite Hi. }
  destruct t as [[r| | | | | | | |]| | |]; [by destruct (Hret r)|..];
    match goal with |- (if ?g then match lact sh ?u s mid with _ => _ end else _) = _ => exact (E g u)
    | |- match lact sh ?u s mid with _ => _ end = _ => exact (E true u) end.
Qed.

(** The sum of a measure of the threads. *)
Definition sumt (f : lthread -> nat) (x : lsystem) : nat := sum_list (map f (map lc_thread x.1)).

Lemma sumt_insert f (lcs : list lclient) (s s1 : store) i cl cl' : lcs !! i = Some cl ->
  sumt f (<[i := cl']> lcs, s1) + f (lc_thread cl) = sumt f (lcs, s) + f (lc_thread cl').
Proof.
  intros H. unfold sumt. cbn [fst]. rewrite map_insert. apply sum_map_insert.
  by apply map_lookup.
Qed.

Lemma lsys_step_sim sh i mid x y x1 :
  sinv sh x y -> lsys_step sh i mid x = Some x1 ->
  sinv sh x1 y /\
    1 + sumt early x1 + sumt late x <= sumt early x + sumt late x1 + length mid /\
    (sumt phase x1 < sumt phase x \/ sumt phase x1 = sumt phase x /\ sumt early x1 < sumt early x) \/
  exists y1, sys_step i y = Some y1 /\ sinv sh x1 y1 /\
    1 + sumt early x1 + sumt late x <= 4 + sumt early x + sumt late x1 + length mid.
Proof.
  destruct x as [lcs s], y as [cs s']. intros [Hcs Hinv] Hs. cbn [fst snd] in *. subst cs.
  destruct (lcs !! i) as [cl|] eqn:Hcl; [|unfold lsys_step in Hs; cbn in Hs; by rewrite Hcl in Hs].
  pose proof (map_lookup lc_thread _ _ _ Hcl) as Hth.
  pose proof (map_lookup eclient _ _ _ Hcl) as Hec.
  pose proof (lookup_lt_Some _ _ _ Hcl) as Hlt.
  assert (Hcase : lc_now cl = None \/ (exists r, lc_now cl = Some (TIdle (PRet r))) \/
    exists t, lc_now cl = Some t /\ forall r, t <> TIdle (PRet r)).
  { destruct (lc_now cl) as [[[]| | |]|]; eauto 6; right; right; eexists; (split; [done|]); done. }
  destruct Hcase as [Hnow|[[r Hnow]|(t & Hnow & Hret)]].
  - unfold lsys_step in Hs. cbn [fst snd] in Hs. rewrite Hcl, Hnow in Hs.
    destruct (lc_todo cl) as [|c rest] eqn:Htodo; [done|]. injection Hs as <-. right.
    eexists. split.
    + unfold sys_step. cbn [fst snd]. rewrite Hec. unfold client_step. cbn. by rewrite Hnow, Htodo.
    + split; [split; cbn [fst snd]; [by rewrite map_insert|]; rewrite map_insert;
        eapply linv_idle; [done|]; rewrite Hth; unfold lc_thread; by rewrite Hnow|].
      match goal with |- context [sumt early (<[i := ?c]> lcs, s)] => 
        pose proof (sumt_insert early lcs s s i cl c Hcl) as He;
        pose proof (sumt_insert late lcs s s i cl c Hcl) as Hla end.
      cbn [lc_thread lc_now] in He, Hla. unfold lc_thread in He, Hla; rewrite Hnow in He, Hla. cbn [early late] in He, Hla. lia.
  - unfold lsys_step in Hs. cbn [fst snd] in Hs. rewrite Hcl, Hnow in Hs.
    injection Hs as <-. right. eexists. split.
    + unfold sys_step. cbn [fst snd]. rewrite Hec. unfold client_step. cbn. by rewrite Hnow.
    + split; [split; cbn [fst snd]; [by rewrite map_insert|]; rewrite map_insert;
        eapply linv_idle; [done|]; rewrite Hth; unfold lc_thread; by rewrite Hnow|].
      match goal with |- context [sumt early (<[i := ?c]> lcs, s)] => 
        pose proof (sumt_insert early lcs s s i cl c Hcl) as He;
        pose proof (sumt_insert late lcs s s i cl c Hcl) as Hla end.
      cbn [lc_thread lc_now] in He, Hla. unfold lc_thread in He, Hla; rewrite Hnow in He, Hla. cbn [early late] in He, Hla. lia.
  - rewrite (lsys_step_thread sh i mid lcs s cl t Hcl Hnow Hret) in Hs.
    destruct (lstep sh i mid (map lc_thread lcs, s)) as [[lts s1]|] eqn:Hl; [|done].
    destruct (lstep_sim _ _ _ _ _ _ _ _ _ Hinv Hl) as (t0 & t' & Ht0 & -> & Hsim).
    assert (t0 = t) as ->.
    { rewrite Hth in Ht0. unfold lc_thread in Ht0. rewrite Hnow in Ht0. by injection Ht0. }
    rewrite list_lookup_insert in Hs by (by rewrite map_length). injection Hs as <-.
    set (cl1 := LClient (lc_done cl) (Some t') (lc_todo cl)).
    pose proof (sumt_insert early lcs s s1 i cl cl1 Hcl) as Hte.
    pose proof (sumt_insert late lcs s s1 i cl cl1 Hcl) as Htl.
    pose proof (sumt_insert phase lcs s s1 i cl cl1 Hcl) as Htp.
    assert (Hlt0 : lc_thread cl = t) by (unfold lc_thread; by rewrite Hnow).
    assert (Hlt1 : lc_thread cl1 = t') by done.
    rewrite Hlt0, Hlt1 in Hte, Htl, Htp.
    destruct Hsim as [(Hinv' & Hc1 & Hc2)|(ts1 & s1' & Hps & Hinv' & Hc1)].
    + left. split; [|split; lia]. clear Hte Htl Htp. pose proof (li_ts _ _ _ _ _ Hinv') as Hts.
      assert (He : erase t' = erase t).
      { assert (E : map erase (map lc_thread lcs) !! i = Some (erase t)) by (by apply map_lookup).
        rewrite Hts, map_insert, list_lookup_insert in E by (by rewrite !map_length). by injection E. }
      split; cbn [fst snd].
      * rewrite map_insert. symmetry. apply list_insert_id. rewrite Hec. unfold cl1, eclient. cbn. by rewrite Hnow, He.
      * rewrite map_insert, Hlt1. by rewrite <-Hts.
    + right. unfold pool_step in Hps. cbn [fst snd] in Hps.
      rewrite (map_lookup erase _ _ _ Ht0) in Hps.
      destruct (pstep (erase t) s') as [[p' s2]|] eqn:Hp; [|done]. injection Hps as <- <-.
      pose proof (li_ts _ _ _ _ _ Hinv') as Hts.
      assert (He : erase t' = p').
      { assert (E : <[i := p']> (map erase (map lc_thread lcs)) !! i = Some p')
          by (apply list_lookup_insert; by rewrite !map_length).
        rewrite Hts, map_insert, list_lookup_insert in E by (by rewrite !map_length). by injection E. }
      eexists. split.
      * unfold sys_step. cbn [fst snd]. rewrite Hec. unfold client_step. cbn. rewrite Hnow.
        assert (Hnr : forall r, erase t <> PRet r) by (intros r E; by rewrite E in Hp).
        rewrite Hp. destruct (erase t) as [res| | | | | | | |]; try reflexivity. by destruct (Hnr res).
      * split; [|lia]. split; cbn [fst snd].
        -- rewrite map_insert. unfold cl1. change (eclient (LClient ?a (Some ?b) ?c)) with (Client a (Some (erase b)) c). by rewrite He.
        -- rewrite map_insert, Hlt1. by rewrite <-Hts.
Qed.

Lemma lsys_run_app sh a b x :
  lsys_run sh (a ++ b) x = match lsys_run sh a x with Some y => lsys_run sh b y | None => None end.
Proof.
  revert x. induction a as [|[i mid] a IH]; intros x; cbn; [done|].
  destruct (lsys_step sh i mid x); [apply IH|done].
Qed.

Lemma lsys_run_sim sh scripts s0 lsched x :
  lsys_run sh lsched (lbegin scripts s0) = Some x ->
  exists (sched : list nat) (f : nat -> nat),
    f (length lsched) = length sched /\ (forall n m, n <= m -> f n <= f m) /\
    sublist sched (map fst lsched) /\
    forall n x, n <= length lsched -> lsys_run sh (take n lsched) (lbegin scripts s0) = Some x ->
      exists y, sys_run (take (f n) sched) (begin scripts s0) = Some y /\ sinv sh x y.
Proof.
  revert x. induction lsched as [|[i mid] lsched IH] using rev_ind; intros x Hr.
  - exists [], (fun _ => 0). split_and!; [done|done|constructor|]. intros n x' Hn Hx'.
    destruct n; [|cbn in Hn; lia]. injection Hx' as <-. exists (begin scripts s0). split; [done|].
    split; cbn [fst snd].
    + unfold lbegin, begin. cbn. by rewrite map_map.
    + assert (Hid : forall i t, map lc_thread (lbegin scripts s0).1 !! i = Some t -> t = TIdle (PRet CPanic)).
      { intros i t Ht. unfold lbegin in Ht. cbn [fst] in Ht. rewrite map_map in Ht.
        change (map ?f scripts !! i) with ((f <$> scripts) !! i) in Ht.
        apply list_lookup_fmap_inv in Ht as (h & -> & _). done. }
      split; try done.
      * intros i p v mid H. by apply Hid in H.
      * intros i p H. by apply Hid in H.
      * intros i j ti tj a b _ Hti Htj Ha _. by apply Hid in Hti as ->.
  - rewrite lsys_run_app in Hr. destruct (lsys_run sh lsched (lbegin scripts s0)) as [x1|] eqn:Hr1; [|done].
    destruct (IH x1 eq_refl) as (sched & f & Hf & Hmono & Hsub & Hsim). cbn in Hr.
    destruct (lsys_step sh i mid x1) as [x2|] eqn:Hs; [|done]. injection Hr as ->.
    destruct (Hsim (length lsched) x1) as (y & Hy & Hinv); [done|by rewrite firstn_all|].
    rewrite Hf, firstn_all in Hy.
    rewrite map_app. cbn [map fst]. rewrite app_length. cbn [length].
    assert (Hmax : forall n, n <= length lsched -> f n <= length sched).
    { intros n Hn. rewrite <-Hf. by apply Hmono. }
    destruct (lsys_step_sim sh i mid x1 y x Hinv Hs) as [(Hinv' & _)|(y1 & Hy1 & Hinv' & _)].
    + exists sched, (fun n => if decide (n <= length lsched) then f n else length sched). split_and!.
      * rewrite decide_False by lia. done.
      * intros n m Hnm. destruct (decide (n <= _)), (decide (m <= _)); [by apply Hmono|by apply Hmax|lia|done].
      * etrans; [exact Hsub|]. by apply sublist_inserts_r.
      * intros n z Hn Hz. destruct (decide (n <= length lsched)) as [Hle|Hgt].
        -- rewrite take_app_le in Hz by done. by apply Hsim.
        -- rewrite take_ge in Hz by (rewrite app_length; cbn; lia).
           rewrite lsys_run_app, Hr1 in Hz. cbn in Hz. rewrite Hs in Hz. injection Hz as <-.
           rewrite firstn_all. by exists y.
    + exists (sched ++ [i]), (fun n => if decide (n <= length lsched) then f n else S (length sched)).
      split_and!.
      * rewrite decide_False by lia. rewrite app_length. cbn. lia.
      * intros n m Hnm. destruct (decide (n <= _)) as [Hn|], (decide (m <= _));
          [by apply Hmono|pose proof (Hmax n Hn); lia|lia|done].
      * by apply sublist_app.
      * intros n z Hn Hz. destruct (decide (n <= length lsched)) as [Hle|Hgt].
        -- rewrite take_app_le in Hz by done. rewrite take_app_le by (by apply Hmax). by apply Hsim.
        -- rewrite take_ge in Hz by (rewrite app_length; cbn; lia).
           rewrite lsys_run_app, Hr1 in Hz. cbn in Hz. rewrite Hs in Hz. injection Hz as <-.
           rewrite take_ge by (rewrite app_length; cbn; lia).
           exists y1. split; [|done]. rewrite sys_run_app, Hy. cbn. by rewrite Hy1.
Qed.

Lemma sinv_client sh x y i cl : sinv sh x y -> x.1 !! i = Some cl ->
  exists cl', y.1 !! i = Some cl' /\ same_client cl cl'.
Proof.
  intros [H _] Hi. exists (eclient cl). split; [by rewrite H; apply map_lookup|].
  unfold same_client, lbegun, begun, eclient. cbn. by destruct (lc_now cl).
Qed.

Lemma sinv_clients sh x y : sinv sh x y -> Forall2 same_client x.1 y.1.
Proof.
  intros H. apply Forall2_same_length_lookup. split.
  - destruct H as [-> _]. by rewrite map_length.
  - intros i cl cl' Hi Hi'. destruct (sinv_client _ _ _ _ _ H Hi) as (c & Hc & Hs). congruence.
Qed.

Lemma sinv_key sh x y k : sinv sh x y -> unlocked sh x k -> st_keys x.2 !! k = st_keys y.2 !! k.
Proof.
  intros [_ Hi] Hu. apply (li_keys _ _ _ _ _ Hi). intros i t Ht Hc%(changing_holds sh).
  change (map lc_thread x.1) with (lc_thread <$> x.1) in Ht.
  apply list_lookup_fmap_inv in Ht as (cl & -> & Hcl). eapply Hu; [|exact Hc]. by eapply elem_of_list_lookup_2.
Qed.

Lemma free_unlocked sh x k : Forall (lfree sh) x.1 -> unlocked sh x k.
Proof. intros H cl Hcl Hh. rewrite Forall_forall in H. specialize (H _ Hcl). unfold lfree, no_lock in H. congruence. Qed.

Lemma sinv_free sh x y : sinv sh x y -> Forall (lfree sh) x.1 -> x.2 = y.2.
Proof.
  intros H Hf. assert (Hk : st_keys x.2 = st_keys y.2).
  { apply map_eq. intros k. eapply sinv_key; [done|]. by apply free_unlocked. }
  destruct H as [_ Hi]. pose proof (li_counters _ _ _ _ _ Hi). destruct (x.2), (y.2). cbn in *. congruence.
Qed.

(** ** C89 *)

Lemma c89 sh scripts s0 lsched x :
  lsys_run sh lsched (lbegin scripts s0) = Some x ->
  exists (sched : list nat) (f : nat -> nat),
    f (length lsched) = length sched /\ (forall n m, n <= m -> f n <= f m) /\
    sublist sched (map fst lsched) /\
    forall n x, n <= length lsched -> lsys_run sh (take n lsched) (lbegin scripts s0) = Some x ->
      exists y, sys_run (take (f n) sched) (begin scripts s0) = Some y /\
        Forall2 same_client x.1 y.1 /\
        (forall k, unlocked sh x k -> st_keys x.2 !! k = st_keys y.2 !! k) /\
        (Forall (lfree sh) x.1 -> x.2 = y.2).
Proof.
  intros Hr. destruct (lsys_run_sim _ _ _ _ _ Hr) as (sched & f & H1 & H2 & H3 & H4).
  exists sched, f. split_and!; [done..|]. intros n z Hn Hz. destruct (H4 n z Hn Hz) as (y & Hy & Hi).
  exists y. split_and!; [done|by eapply sinv_clients|by intros k; eapply sinv_key|by apply (sinv_free sh)].
Qed.

Lemma c89_no_deadlock sh scripts s0 lsched x i cl :
  lsys_run sh lsched (lbegin scripts s0) = Some x -> x.1 !! i = Some cl ->
  (~ lfree sh cl -> forall mid, exists y, lsys_step sh i mid x = Some y) /\
  (Forall (lfree sh) x.1 -> ~ lfinished cl -> forall mid, exists y, lsys_step sh i mid x = Some y).
Proof.
  intros Hr Hcl. destruct (lsys_run_sim _ _ _ _ _ Hr) as (sched & f & _ & _ & _ & H4).
  destruct (H4 (length lsched) x) as (y & _ & Hi); [done|by rewrite firstn_all|].
  destruct x as [lcs s]. cbn [fst snd] in *. destruct Hi as [_ Hi]. cbn [fst snd] in Hi.
  pose proof (map_lookup lc_thread _ _ _ Hcl) as Hth.
  destruct (linv_moves _ _ _ _ _ _ _ Hi Hth) as [M1 M2].
  assert (Hcase : lc_now cl = None \/ (exists r, lc_now cl = Some (TIdle (PRet r))) \/
    exists t, lc_now cl = Some t /\ forall r, t <> TIdle (PRet r)).
  { destruct (lc_now cl) as [[[]| | |]|]; eauto 6; right; right; eexists; (split; [done|]); done. }
  destruct Hcase as [Hnow|[[r Hnow]|(t & Hnow & Hret)]].
  - split; [intros Hf; destruct Hf; unfold lfree, lc_thread; by rewrite Hnow|].
    intros _ Hnf mid. unfold lsys_step. cbn [fst snd]. rewrite Hcl, Hnow.
    destruct (lc_todo cl) eqn:Ht; [by destruct Hnf|by eexists].
  - split; [intros Hf; destruct Hf; unfold lfree, lc_thread; by rewrite Hnow|].
    intros _ Hnf mid. unfold lsys_step. cbn [fst snd]. rewrite Hcl, Hnow. by eexists.
  - assert (Ht : lc_thread cl = t) by (unfold lc_thread; by rewrite Hnow).
    assert (Hstep : forall mid y, lstep sh i mid (map lc_thread lcs, s) = Some y ->
      exists z, lsys_step sh i mid (lcs, s) = Some z).
    { intros mid [lts s1] Hl. rewrite (lsys_step_thread sh i mid lcs s cl t Hcl Hnow Hret), Hl.
      destruct (lstep_sim _ _ _ _ _ _ _ _ _ Hi Hl) as (t0 & t' & Ht0 & -> & _).
      rewrite list_lookup_insert; [by eexists|]. by eapply lookup_lt_Some. }
    split.
    + intros Hf mid. destruct (M1 Hf mid) as [z Hz]. by eapply Hstep.
    + intros Hf _ mid. destruct (M2) with (mid := mid) as [z Hz]; [| |by eapply Hstep].
      * by apply Forall_fmap.
      * intros r E. unfold has_returned in E. rewrite Ht in E. by apply (Hret r).
Qed.

(** ** The theorems about schedules of steps *)

Lemma sinv_returned sh x y a r : sinv sh x y -> lreturned x a r <-> returned y a r.
Proof.
  intros [H _]. unfold lreturned, returned. rewrite H. split.
  - intros (cl & Hi & Hj). exists (eclient cl). split; [by apply map_lookup|done].
  - intros (cl & Hi & Hj). change (map eclient x.1) with (eclient <$> x.1) in Hi.
    apply list_lookup_fmap_inv in Hi as (c & -> & Hc). by exists c.
Qed.

Lemma sinv_not_begun sh x y b : sinv sh x y -> lnot_begun x b -> not_begun y b.
Proof.
  intros Hs (cl & Hi & Hj). destruct (sinv_client _ _ _ _ _ Hs Hi) as (cl' & Hi' & _ & Hb & _).
  exists cl'. split; [done|]. lia.
Qed.

Lemma lock_transfer sh scripts s0 lsched x :
  lsys_run sh lsched (lbegin scripts s0) = Some x ->
  exists sched y f, sys_run sched (begin scripts s0) = Some y /\ sinv sh x y /\
    (forall n m, n <= m -> f n <= f m) /\ (forall n, n <= length lsched -> f n <= length sched) /\
    (forall n x, n <= length lsched -> lsys_run sh (take n lsched) (lbegin scripts s0) = Some x ->
      exists y, sys_run (take (f n) sched) (begin scripts s0) = Some y /\ sinv sh x y) /\
    (forall a b, lbefore sh scripts s0 lsched a b -> before scripts s0 sched a b).
Proof.
  intros Hr. destruct (lsys_run_sim _ _ _ _ _ Hr) as (sched & f & H1 & H2 & _ & H4).
  destruct (H4 (length lsched) x) as (y & Hy & Hi); [done|by rewrite firstn_all|].
  rewrite H1, firstn_all in Hy.
  assert (H5 : forall n, n <= length lsched -> f n <= length sched).
  { intros n Hn. rewrite <-H1. by apply H2. }
  exists sched, y, f. split_and!; try done.
  intros a b (n & z & r & Hn & Hz & Ha & Hb). destruct (H4 n z Hn Hz) as (w & Hw & Hiw).
  exists (f n), w, r. split_and!; [by apply H5|done|by apply (sinv_returned _ _ _ _ _ Hiw)|
    by eapply sinv_not_begun].
Qed.

Lemma c74_locked sh scripts s0 lsched x :
  room_for_all scripts s0 -> simple scripts s0 -> lsys_run sh lsched (lbegin scripts s0) = Some x ->
  lordered sh scripts s0 lsched (lexplains sh scripts s0).
Proof.
  intros Hroom Hs Hr.
  destruct (lock_transfer _ _ _ _ _ Hr) as (sched & y & f & Hy & _ & Hmono & Hmax & Hsim & _).
  destruct (c74 _ _ _ _ Hroom Hs Hy) as [lin Hlin].
  exists (fun n => lin (f n)). intros n z Hn Hz. destruct (Hsim n z Hn Hz) as (w & Hw & Hi).
  destruct (Hlin (f n) w (Hmax n Hn) Hw) as [(h & E1 & E2 & E3 & E4) Hpre].
  split; [|intros m Hm; by apply Hpre, Hmono].
  exists h. split_and!; [done..| |].
  - intros k Hk. by rewrite (sinv_key _ _ _ _ Hi Hk), E3.
  - intros i cl Hcl. destruct (sinv_client _ _ _ _ _ Hi Hcl) as (cl' & Hcl' & Ed & Eb & _).
    destruct (E4 i cl' Hcl') as [F1 F2]. rewrite Ed, Eb. done.
Qed.

Lemma c85_locked sh k scripts s0 lsched x :
  room_for_all scripts s0 -> simple_at k scripts s0 -> lsys_run sh lsched (lbegin scripts s0) = Some x ->
  lordered sh scripts s0 lsched (lexplains_at sh k scripts s0).
Proof.
  intros Hroom Hs Hr.
  destruct (lock_transfer _ _ _ _ _ Hr) as (sched & y & f & Hy & _ & Hmono & Hmax & Hsim & _).
  destruct (c85 _ _ _ _ _ Hroom Hs Hy) as [lin Hlin].
  exists (fun n => lin (f n)). intros n z Hn Hz. destruct (Hsim n z Hn Hz) as (w & Hw & Hi).
  destruct (Hlin (f n) w (Hmax n Hn) Hw) as [(h & E1 & E2 & E3 & E4) Hpre].
  split; [|intros m Hm; by apply Hpre, Hmono].
  exists h. split_and!; [done..| |].
  - intros Hk. by rewrite (sinv_key _ _ _ _ Hi Hk), E3.
  - intros i cl Hcl. destruct (sinv_client _ _ _ _ _ Hi Hcl) as (cl' & Hcl' & Ed & Eb & _).
    destruct (E4 i cl' Hcl') as [F1 F2]. rewrite Ed, Eb. done.
Qed.

Lemma c86_locked sh k scripts s0 z0 lsched x :
  room_for_all scripts s0 -> ordinary k -> st_keys s0 !! k = Some (VInteger z0) ->
  i64_range z0 -> i64_range (z0 + Z.of_nat (length (concat scripts))) ->
  (forall c, issued scripts c ->
     (env_ok (c_env c) /\ adds_int c k 1) \/ ~ may_write (c_req c) k) ->
  lsys_run sh lsched (lbegin scripts s0) = Some x ->
  exists out : list (nat * nat), NoDup out /\
  (forall a, a ∈ out -> exists c, call_at scripts a = Some c /\ adds_int c k 1) /\
  (forall a c r, call_at scripts a = Some c -> adds_int c k 1 -> lreturned x a r ->
     exists i, out !! i = Some a /\
       responds (c_env c) (c_res c) (VInteger (z0 + 1 + Z.of_nat i)) r) /\
  (forall i j a b, out !! i = Some a -> out !! j = Some b -> lbefore sh scripts s0 lsched a b -> i < j) /\
  (unlocked sh x k -> st_keys x.2 !! k = Some (VInteger (z0 + Z.of_nat (length out)))).
Proof.
  intros Hroom Hk H0 Hr0 Hr1 Hall Hr.
  destruct (lock_transfer _ _ _ _ _ Hr) as (sched & y & f & Hy & Hi & _ & _ & _ & Hbef).
  destruct (c86 _ _ _ _ _ _ Hroom Hk H0 Hr0 Hr1 Hall Hy) as (out & E1 & E2 & E3 & E4 & E5).
  exists out. split_and!; [done|done| | |].
  - intros a c r Hc Ha Hret%(sinv_returned _ _ _ _ _ Hi). by eapply E3.
  - intros i j a b Ha Hb Hab. eapply E4; [done..|]. by apply Hbef.
  - intros Hu. by rewrite (sinv_key _ _ _ _ Hi Hu).
Qed.

Lemma c87_locked sh k scripts s0 t v0 lsched x :
  room_for_all scripts s0 -> ordinary k -> st_keys s0 !! k = Some v0 -> kind v0 = t ->
  is_Some (append_to v0 []) ->
  (forall c, issued scripts c ->
     (env_ok (c_env c) /\ exists l, appends c k t l /\ is_Some (append_to v0 l)) \/
     ~ may_write (c_req c) k) ->
  lsys_run sh lsched (lbegin scripts s0) = Some x ->
  exists (out : list (nat * nat)) (ls : list (list bytes)), NoDup out /\
  Forall2 (fun a l => exists c, call_at scripts a = Some c /\ appends c k t l) out ls /\
  (forall a c l r, call_at scripts a = Some c -> appends c k t l -> lreturned x a r ->
     exists i v, out !! i = Some a /\ append_to v0 (concat (take (S i) ls)) = Some v /\
       responds (c_env c) (c_res c) v r) /\
  (forall i j a b, out !! i = Some a -> out !! j = Some b -> lbefore sh scripts s0 lsched a b -> i < j) /\
  exists v, append_to v0 (concat ls) = Some v /\ (unlocked sh x k -> st_keys x.2 !! k = Some v).
Proof.
  intros Hroom Hk H0 Ht Hnil Hall Hr.
  destruct (lock_transfer _ _ _ _ _ Hr) as (sched & y & f & Hy & Hi & _ & _ & _ & Hbef).
  destruct (c87 _ _ _ _ _ _ _ Hroom Hk H0 Ht Hnil Hall Hy) as (out & ls & E1 & E2 & E3 & E4 & v & E5 & E6).
  exists out, ls. split_and!; [done|done| | |].
  - intros a c l r Hc Ha Hret%(sinv_returned _ _ _ _ _ Hi). by eapply E3.
  - intros i j a b Ha Hb Hab. eapply E4; [done..|]. by apply Hbef.
  - exists v. split; [done|]. intros Hu. by rewrite (sinv_key _ _ _ _ Hi Hu).
Qed.

Lemma c88_locked sh k scripts s0 v0 lsched x :
  room_for_all scripts s0 -> st_keys s0 !! k = Some v0 ->
  (forall c, issued scripts c -> (env_ok (c_env c) /\ deletes c k) \/ ~ may_write (c_req c) k) ->
  lsys_run sh lsched (lbegin scripts s0) = Some x ->
  exists won : option (nat * nat),
  (unlocked sh x k -> st_keys x.2 !! k = match won with None => Some v0 | Some _ => None end) /\
  (forall b, won = Some b -> exists c, call_at scripts b = Some c /\ deletes c k) /\
  (forall a c r, call_at scripts a = Some c -> deletes c k -> lreturned x a r ->
     exists b, won = Some b /\ ~ lbefore sh scripts s0 lsched a b /\
       if decide (a = b) then responds (c_env c) (c_res c) (VBytes k) r
       else r = CErr EPreconditionFailed (c_res c)).
Proof.
  intros Hroom H0 Hall Hr.
  destruct (lock_transfer _ _ _ _ _ Hr) as (sched & y & f & Hy & Hi & _ & _ & _ & Hbef).
  destruct (c88 _ _ _ _ _ _ Hroom H0 Hall Hy) as (won & E1 & E2 & E3 & _).
  exists won. split_and!.
  - intros Hu. by rewrite (sinv_key _ _ _ _ Hi Hu).
  - done.
  - intros a c r Hc Ha Hret%(sinv_returned _ _ _ _ _ Hi).
    destruct (E3 a c r Hc Ha Hret) as (b & F1 & F2 & F3). exists b. split_and!; [done| |done].
    intros Hab. by apply F2, Hbef.
Qed.
