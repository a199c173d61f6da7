(** Clients that delete and rename the same key at the same time: proofs (C115). *)
From Verif Require Import Bytes BytesFacts Utf8 Float64 Value CommandId Request Response
  Metrics Prog Commands EngineSpec WireSpec RequestSpec RequestFacts HistorySpec ProgFacts
  CommandFacts SafeFacts EngineFacts EngineProps HistoryFacts Locks LockSpec LockScripts LockScriptSpec
  Concurrent ConcSpec ConcFacts ConcProps
  Scripts LinSpec LinFacts KeyLinSpec KeyLin KeyLinFacts IsoSpec IsoFacts ScriptInv LockScriptFacts
  SetRaceSpec SetRaceFacts RaceRule TakeRaceSpec.
From stdpp Require Import gmap list.
From Coq Require Import NArith ZArith Lia.
From Coq Require Import ZifyBool ZifyNat ZifyN.

Lemma sent_to_one k b b' c : sent_to k b c -> sent_to k b' c -> b' = b.
Proof.
  intros (l & _ & _ & H) (l' & _ & _ & H'). by pose proof (carries_unique _ _ _ H H') as [= -> _].
Qed.

Lemma deletes_not_sent k b c : deletes c k -> ~ sent_to k b c.
Proof. intros (l & H & _) (l' & H' & _). congruence. Qed.

Lemma takes_writes k c : takes k c -> may_write (c_req c) k.
Proof.
  intros [(l & Hq)|(b & _ & l & Hq)]; (split; [by destruct Hq as (-> & _)|]); left; by eapply asks_arg0.
Qed.

Section race.
  Context (k : bytes) (scripts : list (list call)) (s0 : store) (v0 : value).
  Hypothesis Honly : only_taken k scripts.
  Hypothesis Henv : envs_ok scripts.
  Hypothesis Hv0 : st_keys s0 !! k = Some v0.

  Definition rn2 (c : call) (b : bytes) : prog :=
    PRemove k (fun v => match v with
      | None => fail (c_res c) EKeyNonexistent
      | Some v => PInsert b v (PRet (cres_of (write_bytes (c_env c) (c_res c) b)))
      end).
  Definition rn1 (c : call) (b : bytes) : prog :=
    PContains b (fun x => if x then fail (c_res c) EPreconditionFailed else rn2 c b).
  Definition rn0 (c : call) (b : bytes) : prog :=
    PContains k (fun x => if x then rn1 c b else fail (c_res c) EKeyNonexistent).
  Definition dl (c : call) : prog :=
    PRemove k (fun v => match v with
      | None => fail (c_res c) EPreconditionFailed
      | Some _ => PRet (cres_of (copy_to (c_env c) (RValue (VBytes k)) (c_res c)))
      end).

  Lemma prog_delete c : deletes c k -> command_prog (c_env c) (c_req c) (c_res c) = dl c.
  Proof.
    intros (l & Hcmd & Hkt & Hc). unfold command_prog. rewrite Hcmd. unfold cmd_delete. rewrite Hkt.
    by destruct (spec_key_some (c_req c) CDelete k l) as (-> & _).
  Qed.

  Lemma prog_rename c b : sent_to k b c -> command_prog (c_env c) (c_req c) (c_res c) = rn0 c b.
  Proof.
    intros (l & Hcmd & Hkt & Hc). unfold command_prog. rewrite Hcmd. unfold cmd_rename. rewrite Hkt.
    by destruct (spec_key_some (c_req c) CRename k (b :: l)) as (_ & -> & -> & _).
  Qed.

  Definition pre (c : call) (x : tstate) : Prop :=
    (deletes c k /\ x = TRun (dl c)) \/
    exists b, b <> k /\ sent_to k b c /\ (x = TRun (rn0 c b) \/ x = TRun (rn1 c b) \/ x = TRun (rn2 c b)).
  Definition hit (c : call) (x : tstate) : Prop :=
    (exists r, ret x r /\ answers_name k c r) \/
    exists b, b <> k /\ sent_to k b c /\
      x = TRun (PInsert b v0 (PRet (cres_of (write_bytes (c_env c) (c_res c) b)))).
  Definition miss (bf : nat * nat -> nat * nat -> Prop) won (a : nat * nat) (c : call) (x : tstate) : Prop :=
    exists r, ret x r /\ reports_loss k scripts s0 bf won a c r.

  Definition dest (won : option (nat * nat)) (N : nat * nat -> option tstate) (s : store) (b : bytes) : Prop :=
    (st_keys s !! b = st_keys s0 !! b /\
     forall w c x, won = Some w -> call_at scripts w = Some c -> sent_to k b c -> N w = Some x ->
       exists p, x = TRun (PInsert b v0 p)) \/
    exists w c, won = Some w /\ call_at scripts w = Some c /\ sent_to k b c /\ st_keys s !! b = Some v0.

  Definition inv_at (won : option (nat * nat)) (bf : nat * nat -> nat * nat -> Prop)
    (N : nat * nat -> option tstate) (s : store) : Prop :=
    st_keys s !! k = match won with None => Some v0 | Some _ => None end /\
    (forall w, won = Some w -> exists c x, call_at scripts w = Some c /\ takes k c /\ N w = Some x /\ hit c x) /\
    (forall a c x, call_at scripts a = Some c -> takes k c -> N a = Some x -> won <> Some a ->
       pre c x \/ miss bf won a c x) /\
    (forall a b, bf a b -> exists r, N a = Some (TDone r)) /\
    (forall b, b <> k -> only_through k b scripts -> dest won N s b).
  Definition inv (bf : nat * nat -> nat * nat -> Prop) (N : nat * nat -> option tstate) (s : store) : Prop :=
    exists won, inv_at won bf N s.

  Lemma upd_same (N : nat * nat -> option tstate) ij x : upd N ij x ij = Some x.
  Proof. unfold upd. by rewrite decide_True. Qed.
  Lemma upd_other (N : nat * nat -> option tstate) ij x a : a <> ij -> upd N ij x a = N a.
  Proof. intros H. unfold upd. by rewrite decide_False. Qed.

  Lemma inv_ext' bf N N' s : (forall ij, N ij = N' ij) -> inv bf N s -> inv bf N' s.
  Proof.
    intros E (won & H1 & H2 & H3 & H4 & H5). exists won. split_and!; [done| | | |].
    - intros w Hw. destruct (H2 w Hw) as (c & x & ? & ? & ? & ?). exists c, x. by rewrite <-E.
    - intros a c x. rewrite <-E. eauto.
    - intros a b. rewrite <-E. eauto.
    - intros b Hb Ho. destruct (H5 b Hb Ho) as [(A & B)|H]; [|by right]. left. split; [done|].
      intros w c x. rewrite <-E. eauto.
  Qed.

  Lemma loss_more (bf bf' : nat * nat -> nat * nat -> Prop) won a c r :
    (forall w, won = Some w -> bf' a w -> bf a w) ->
    reports_loss k scripts s0 bf won a c r -> reports_loss k scripts s0 bf' won a c r.
  Proof.
    intros Hb [(A & B & w & C & D)|(b & A & [(B & w & C & D)|(B & C)])].
    - left. split; [done|]. split; [done|]. exists w. split; [done|]. intros ?. by apply D, Hb.
    - right. exists b. split; [done|]. left. split; [done|]. exists w. split; [done|]. intros ?. by apply D, Hb.
    - right. exists b. split; [done|]. right. split; [done|]. intros Ho.
      destruct (C Ho) as [?|(w & c' & ? & ? & ? & D)]; [by left|]. right. exists w, c'. split_and!; try done.
      intros ?. by apply D, Hb.
  Qed.

  Lemma inv_more' (bf bf' : nat * nat -> nat * nat -> Prop) N s :
    (forall a b, bf' a b -> bf a b \/ ((exists r, N a = Some (TDone r)) /\ N b = None)) ->
    inv bf N s -> inv bf' N s.
  Proof.
    intros Hb (won & H1 & H2 & H3 & H4 & H5). exists won. split_and!; try done.
    - intros a c x Hc Ht Hx Hne. destruct (H3 a c x Hc Ht Hx Hne) as [?|(r & Hr & Hl)]; [by left|right].
      exists r. split; [done|]. eapply loss_more; [|done]. intros w Hw Hbf.
      destruct (Hb _ _ Hbf) as [?|[_ Hn]]; [done|]. destruct (H2 w Hw) as (c' & x' & _ & _ & ? & _). congruence.
    - intros a b Hab. destruct (Hb a b Hab) as [H|[H _]]; [by eapply H4|done].
  Qed.

  (** A step that takes nothing away and puts nothing anywhere. *)
  Lemma inv_keep won bf N s s' ij c x' : inv_at won bf N s -> call_at scripts ij = Some c ->
    st_keys s' !! k = st_keys s !! k ->
    (forall b, b <> k -> only_through k b scripts -> st_keys s' !! b = st_keys s !! b) ->
    (forall r, N ij = Some (TDone r) -> exists r', x' = TDone r') ->
    (takes k c -> won = Some ij -> hit c x' /\ forall b p, N ij <> Some (TRun (PInsert b v0 p))) ->
    (takes k c -> won <> Some ij -> pre c x' \/ miss bf won ij c x') ->
    inv_at won bf (upd N ij x') s'.
  Proof.
    intros (H1 & H2 & H3 & H4 & H5) Hc Ek Eb Hd Hwon Hlost.
    assert (Hone : forall c', call_at scripts ij = Some c' -> c' = c) by congruence.
    split_and!.
    - by rewrite Ek.
    - intros w Hw. destruct (H2 w Hw) as (cw & x & A & B & C & D). destruct (decide (w = ij)) as [->|Hne].
      + apply Hone in A as ->. exists c, x'. rewrite upd_same. split_and!; try done. by apply Hwon.
      + exists cw, x. by rewrite upd_other.
    - intros a c' x Hc' Ht. destruct (decide (a = ij)) as [->|Hne].
      + rewrite upd_same. intros [= <-]. apply Hone in Hc' as ->. by apply Hlost.
      + rewrite upd_other by done. by apply H3.
    - intros a b Hab. destruct (H4 a b Hab) as [r Hr]. destruct (decide (a = ij)) as [->|Hne].
      + rewrite upd_same. destruct (Hd _ Hr) as [r' ->]. eauto.
      + rewrite upd_other by done. eauto.
    - intros b Hb Ho. destruct (H5 b Hb Ho) as [(A & B)|(w & cw & A & B & C & D)].
      + left. split; [by rewrite Eb|]. intros w cw x Hw Hcw Hs. destruct (decide (w = ij)) as [->|Hne].
        * apply Hone in Hcw as ->. destruct (H2 _ Hw) as (c' & y & Hc' & Ht & Hy & _). apply Hone in Hc' as ->.
          destruct (B _ _ _ Hw Hc Hs Hy) as [p ->]. destruct (Hwon Ht Hw) as [_ Hn]. by destruct (Hn b p).
        * rewrite upd_other by done. by eapply B.
      + right. exists w, cw. split_and!; try done. by rewrite Eb.
  Qed.

  (** The step that takes it away. *)
  Lemma inv_win bf N s s' ij c q q' : inv_at None bf N s -> call_at scripts ij = Some c -> takes k c ->
    N ij = Some (TRun q) -> st_keys s' !! k = None ->
    (forall b, b <> k -> st_keys s' !! b = st_keys s !! b) ->
    hit c (TRun q') -> (forall b, sent_to k b c -> exists p, q' = PInsert b v0 p) ->
    inv_at (Some ij) bf (upd N ij (TRun q')) s'.
  Proof.
    intros (H1 & H2 & H3 & H4 & H5) Hc Ht Hn Ek Eb Hh Hp.
    split_and!.
    - done.
    - intros w [= <-]. exists c, (TRun q'). by rewrite upd_same.
    - intros a c' x Hc' Ht' Hx Hne. assert (a <> ij) by congruence. rewrite upd_other in Hx by done.
      destruct (H3 a c' x Hc' Ht' Hx) as [?|(r & Hr & Hl)]; [done|by left|right]. exists r. split; [done|].
      destruct Hl as [(_ & _ & w & ? & _)|(b & A & [(_ & w & ? & _)|(B & C)])]; [done|done|].
      right. exists b. split; [done|]. right. split; [done|]. intros Ho. left.
      by destruct (C Ho) as [?|(w & ? & ? & _)].
    - intros a b Hab. destruct (H4 a b Hab) as [r Hr]. destruct (decide (a = ij)) as [->|Hne]; [congruence|].
      rewrite upd_other by done. eauto.
    - intros b Hb Ho. destruct (H5 b Hb Ho) as [(A & B)|(w & cw & ? & _)]; [|done].
      left. split; [by rewrite Eb|]. intros w cw x [= <-] Hcw Hs. assert (cw = c) as -> by congruence.
      rewrite upd_same. intros [= <-]. destruct (Hp b Hs) as [p ->]. eauto.
  Qed.

  (** The step that puts it at its new name. *)
  Lemma inv_put bf N s s' ij c b p q' : inv_at (Some ij) bf N s -> call_at scripts ij = Some c ->
    N ij = Some (TRun (PInsert b v0 p)) -> b <> k -> sent_to k b c ->
    st_keys s' = <[b := v0]> (st_keys s) -> hit c (TRun q') ->
    inv_at (Some ij) bf (upd N ij (TRun q')) s'.
  Proof.
    intros (H1 & H2 & H3 & H4 & H5) Hc Hn Hbk Hs Es Hh.
    split_and!.
    - rewrite Es, lookup_insert_ne by done. done.
    - intros w [= <-]. destruct (H2 ij eq_refl) as (c' & x & A & B & _). exists c, (TRun q').
      assert (c' = c) as -> by congruence. by rewrite upd_same.
    - intros a c' x Hc' Ht' Hx Hne. assert (a <> ij) by congruence. rewrite upd_other in Hx by done.
      by apply H3.
    - intros a b' Hab. destruct (H4 a b' Hab) as [r Hr]. destruct (decide (a = ij)) as [->|Hne]; [congruence|].
      rewrite upd_other by done. eauto.
    - intros b' Hb' Ho. destruct (decide (b' = b)) as [->|Hne].
      + right. exists ij, c. split_and!; try done. by rewrite Es, lookup_insert.
      + assert (Hns : ~ sent_to k b' c) by (intros H; by apply Hne, (sent_to_one k b b' c)).
        left. destruct (H5 b' Hb' Ho) as [(A & B)|(w & cw & [= <-] & A & B & _)].
        * split; [by rewrite Es, lookup_insert_ne|]. intros w cw x [= <-] Hcw Hs'.
          assert (cw = c) as -> by congruence. done.
        * assert (cw = c) as -> by congruence. done.
  Qed.

  Lemma ret_run q r : ret (TRun q) r -> q = PRet r.
  Proof. by intros [[= ->]|?]. Qed.

  Lemma not_sooner won bf N s ij w q : inv_at won bf N s -> N ij = Some (TRun q) -> ~ bf ij w.
  Proof. intros (_ & _ & _ & H4 & _) Hn Hb. destruct (H4 _ _ Hb). congruence. Qed.

  Lemma inv_step' bf N s s' ij c q q' : inv bf N s -> call_at scripts ij = Some c -> N ij = Some (TRun q) ->
    within (uses (c_req c)) (may_write (c_req c)) (r_command (c_req c) = CStats) q ->
    pstep q s = Some (q', s') -> inv bf (upd N ij (TRun q')) s'.
  Proof.
    intros (won & Hinv) Hc Hn Hwi Hst. pose proof Hinv as (H1 & H2 & H3 & H4 & H5).
    assert (Hi : issued scripts c) by (by exists ij).
    destruct (within_pstep _ _ _ _ _ _ _ Hwi Hst) as [_ Hkeep].
    assert (Hnd : forall y r, N ij = Some (TDone r) -> exists r', y = TDone r') by (intros y r E; congruence).
    destruct (decide (arg (c_req c) 0 = Some k /\ read_only (r_command (c_req c)) = false)) as [[Ha Hro]|Hno].
    2: { assert (Hnt : ~ takes k c).
      { intros Ht. pose proof (takes_writes _ _ Ht) as [Hr _]. apply Hno. split; [|done].
        destruct Ht as [(l & Hq)|(b & _ & l & Hq)]; by eapply asks_arg0. }
      exists won. eapply inv_keep; try done; try (by intros r E; apply (Hnd _ r)).
      - apply Hkeep. intros Hw. by apply Hnt, Honly.
      - intros b Hb Ho. apply Hkeep. intros Hw. by apply Hnt, Ho. }
    assert (Ht : takes k c) by (apply Honly; [done|]; split; [done|by left]).
    destruct (decide (won = Some ij)) as [->|Hne].
    { destruct (H2 ij eq_refl) as (c' & x & A & _ & B & Hh). assert (c' = c) as -> by congruence.
      assert (x = TRun q) as -> by congruence.
      destruct Hh as [(r & ->%ret_run & _)|(b & Hb & Hs & [= ->])]; [done|].
      cbn in Hst. injection Hst as <- <-. exists (Some ij). eapply inv_put; try done.
      left. eexists. split; [by left|]. right. exists b. split; [done|].
      apply (responds_copy (c_env c) (c_res c) (VBytes b)). by apply Henv. }
    destruct (H3 ij c _ Hc Ht Hn Hne) as [Hp|(r & ->%ret_run & _)]; [|done].
    assert (Hns : forall w, ~ bf ij w) by (intros w; by eapply not_sooner).
    destruct Hp as [(Hd & [= ->])|(b & Hb & Hs & [[= ->]|[[= ->]|[= ->]]])]; cbn in Hst; injection Hst as <- <-.
    - (* Delete *)
      destruct won as [w|]; rewrite H1.
      + exists (Some w). eapply inv_keep; try done; try (by intros r E; apply (Hnd _ r)); try (by intros _ E; destruct Hne).
        * by rewrite st_keys_with, lookup_delete, H1.
        * intros b Hb _. by rewrite st_keys_with, lookup_delete_ne.
        * intros _ _. right. eexists. split; [by left|]. left. split; [done|]. split; [done|]. by exists w.
      + exists (Some ij). eapply inv_win; try done.
        * by rewrite st_keys_with, lookup_delete.
        * intros b Hb. by rewrite st_keys_with, lookup_delete_ne.
        * left. eexists. split; [by left|]. left. split; [done|]. apply responds_copy. by apply Henv.
        * intros b Hs. by destruct (deletes_not_sent _ _ _ Hd Hs).
    - (* Rename looks at the old name *)
      exists won. eapply inv_keep; try done; try (by intros r E; apply (Hnd _ r)); try (by intros _ E; destruct Hne). intros _ _. rewrite H1. destruct won as [w|].
      + right. eexists. split; [by left|]. right. exists b. split; [done|]. left. split; [done|]. by exists w.
      + left. right. exists b. auto.
    - (* Rename looks at the new name *)
      exists won. eapply inv_keep; try done; try (by intros r E; apply (Hnd _ r)); try (by intros _ E; destruct Hne). intros _ _. destruct (st_keys s !! b) as [w|] eqn:Hw.
      + right. eexists. split; [by left|]. right. exists b. split; [done|]. right. split; [done|].
        intros Ho. destruct (H5 b Hb Ho) as [(A & _)|(a & ca & A & B & C & _)].
        * left. rewrite <-A, Hw. eauto.
        * right. by exists a, ca.
      + left. right. exists b. auto.
    - (* Rename takes it *)
      destruct won as [w|]; rewrite H1.
      + exists (Some w). eapply inv_keep; try done; try (by intros r E; apply (Hnd _ r)); try (by intros _ E; destruct Hne).
        * by rewrite st_keys_with, lookup_delete, H1.
        * intros b' Hb' _. by rewrite st_keys_with, lookup_delete_ne.
        * intros _ _. right. eexists. split; [by left|]. right. exists b. split; [done|]. left. split; [done|]. by exists w.
      + exists (Some ij). eapply inv_win; try done.
        * by rewrite st_keys_with, lookup_delete.
        * intros b' Hb'. by rewrite st_keys_with, lookup_delete_ne.
        * right. by exists b.
        * intros b' Hs'. rewrite (sent_to_one _ _ _ _ Hs Hs'). eauto.
  Qed.

  Lemma inv_begin' bf N s ij c : inv bf N s -> call_at scripts ij = Some c -> N ij = None ->
    inv bf (upd N ij (tstart c)) s.
  Proof.
    intros (won & Hinv) Hc Hn. exists won. eapply inv_keep; try done.
    - intros r E. congruence.
    - intros _ ->. destruct Hinv as (_ & H2 & _). destruct (H2 ij eq_refl) as (? & ? & _ & _ & ? & _). congruence.
    - intros Ht _. left. unfold tstart. destruct Ht as [Hd|(b & Hb & Hs)].
      + left. split; [done|]. by rewrite prog_delete.
      + right. exists b. rewrite (prog_rename _ _ Hs). auto.
  Qed.

  Lemma inv_ret' bf N s s' ij c x r : inv bf N s -> call_at scripts ij = Some c -> N ij = Some x -> ret x r ->
    st_keys s' = st_keys s -> inv bf (upd N ij (TDone r)) s'.
  Proof.
    intros (won & Hinv) Hc Hn Hx Es. pose proof Hinv as (H1 & H2 & H3 & H4 & H5). exists won.
    assert (Hr : forall r', ret x r' -> r' = r).
    { intros r' Hx'. destruct Hx as [->| ->], Hx' as [E|E]; congruence. }
    eapply inv_keep; try done.
    - by rewrite Es.
    - intros b _ _. by rewrite Es.
    - eauto.
    - intros Ht ->. destruct (H2 ij eq_refl) as (c' & y & A & _ & B & Hh).
      assert (c' = c) as -> by congruence. assert (y = x) as -> by congruence. split.
      + destruct Hh as [(r' & Hr' & Hans)|(b & _ & _ & ->)]; [|by apply ret_run in Hx].
        apply Hr in Hr' as ->. left. exists r. split; [by right|done].
      + intros b p E. assert (x = TRun (PInsert b v0 p)) as -> by congruence. by apply ret_run in Hx.
    - intros Ht Hne. right. destruct (H3 ij c x Hc Ht Hn Hne) as [Hp|(r' & Hr' & Hl)].
      + destruct Hp as [(_ & ->)|(b & _ & _ & [->|[->| ->]])]; by apply ret_run in Hx.
      + apply Hr in Hr' as ->. exists r. split; [by right|done].
  Qed.

  Lemma inv_init' : inv (fun _ _ => False) (fun _ => None) s0.
  Proof.
    exists None. split_and!; try done. intros b Hb _. left. by split.
  Qed.
End race.

Lemma take_run k scripts s0 v0 sched x :
  room_for_all scripts s0 -> envs_ok scripts -> only_taken k scripts -> st_keys s0 !! k = Some v0 ->
  sys_run sched (begin scripts s0) = Some x ->
  exists vs, rinv scripts s0 (JP (inv k scripts s0 v0) (before scripts s0 sched)) vs x.
Proof.
  intros Hroom Henv Honly Hv0 Hr. eapply race_rule; try done.
  - intros. by eapply inv_ext'.
  - intros. by eapply inv_more'.
  - intros. by eapply inv_begin'.
  - intros. by eapply inv_step'.
  - intros. by eapply inv_ret'.
  - by apply inv_init'.
Qed.

Lemma c115_one k scripts s0 v0 sched x :
  room_for_all scripts s0 -> envs_ok scripts -> only_taken k scripts -> st_keys s0 !! k = Some v0 ->
  sys_run sched (begin scripts s0) = Some x ->
  exists won : option (nat * nat),
  st_keys x.2 !! k = match won with None => Some v0 | Some _ => None end /\
  (forall w, won = Some w -> exists c, call_at scripts w = Some c /\ takes k c) /\
  (forall a c r, call_at scripts a = Some c -> takes k c -> returned x a r ->
     if decide (won = Some a) then answers_name k c r
     else reports_loss k scripts s0 (before scripts s0 sched) won a c r) /\
  (forall b, b <> k -> only_through k b scripts ->
     st_keys x.2 !! b = st_keys s0 !! b \/
     exists w c, won = Some w /\ call_at scripts w = Some c /\ sent_to k b c /\ st_keys x.2 !! b = Some v0) /\
  (forall w c b r, won = Some w -> call_at scripts w = Some c -> b <> k -> sent_to k b c ->
     only_through k b scripts -> returned x w r -> st_keys x.2 !! b = Some v0).
Proof.
  intros Hroom Henv Honly Hv0 Hr.
  destruct (take_run _ _ _ _ _ _ Hroom Henv Honly Hv0 Hr) as [vs Hvs].
  pose proof Hvs as (_ & _ & _ & _ & (won & H1 & H2 & H3 & _ & H5)). exists won. split_and!.
  - done.
  - intros w Hw. destruct (H2 w Hw) as (c & _ & ? & ? & _). by exists c.
  - intros a c r Hc Ht Hret. pose proof (now_of_returned _ _ _ _ _ _ _ Hvs Hret) as Hn.
    destruct (decide (won = Some a)) as [->|Hne].
    + destruct (H2 a eq_refl) as (c' & y & A & _ & B & Hh). assert (c' = c) as -> by congruence.
      assert (y = TDone r) as -> by congruence.
      destruct Hh as [(r' & [?|[= ->]] & Ha)|(b & _ & _ & ?)]; done.
    + destruct (H3 a c _ Hc Ht Hn Hne) as [[(_ & ?)|(b & _ & _ & [?|[?|?]])]|(r' & [?|[= ->]] & Hl)]; done.
  - intros b Hb Ho. destruct (H5 b Hb Ho) as [(A & _)|H]; [by left|by right].
  - intros w c b r Hw Hc Hb Hs Ho Hret. pose proof (now_of_returned _ _ _ _ _ _ _ Hvs Hret) as Hn.
    destruct (H5 b Hb Ho) as [(A & B)|(w' & c' & _ & _ & _ & H)]; [|done].
    by destruct (B _ _ _ Hw Hc Hs Hn).
Qed.

(** With the map's locks. *)
Lemma c115_locked sh k scripts s0 v0 lsched x :
  room_for_all scripts s0 -> envs_ok scripts -> only_taken k scripts -> st_keys s0 !! k = Some v0 ->
  lsys_run sh lsched (lbegin scripts s0) = Some x ->
  exists won : option (nat * nat),
  (unlocked sh x k -> st_keys x.2 !! k = match won with None => Some v0 | Some _ => None end) /\
  (forall w, won = Some w -> exists c, call_at scripts w = Some c /\ takes k c) /\
  (forall a c r, call_at scripts a = Some c -> takes k c -> lreturned x a r ->
     if decide (won = Some a) then answers_name k c r
     else reports_loss k scripts s0 (lbefore sh scripts s0 lsched) won a c r) /\
  (forall b, b <> k -> only_through k b scripts -> unlocked sh x b ->
     st_keys x.2 !! b = st_keys s0 !! b \/
     exists w c, won = Some w /\ call_at scripts w = Some c /\ sent_to k b c /\ st_keys x.2 !! b = Some v0) /\
  (forall w c b r, won = Some w -> call_at scripts w = Some c -> b <> k -> sent_to k b c ->
     only_through k b scripts -> lreturned x w r -> unlocked sh x b -> st_keys x.2 !! b = Some v0).
Proof.
  intros Hroom Henv Honly Hv0 Hr.
  destruct (lock_transfer _ _ _ _ _ Hr) as (sched & y & f & Hy & Hi & _ & _ & _ & Hb).
  destruct (c115_one k scripts s0 v0 sched y Hroom Henv Honly Hv0 Hy) as (won & H1 & H2 & H3 & H4 & H5).
  exists won. split_and!.
  - intros Hu. by rewrite (sinv_key _ _ _ _ Hi Hu).
  - done.
  - intros a c r Hc Ht Hret%(sinv_returned _ _ _ _ _ Hi). specialize (H3 a c r Hc Ht Hret).
    destruct (decide (won = Some a)); [done|]. eapply loss_more; [|done]. intros w _. by apply Hb.
  - intros b Hbk Ho Hu. rewrite (sinv_key _ _ _ _ Hi Hu). by apply H4.
  - intros w c b r Hw Hc Hbk Hs Ho Hret%(sinv_returned _ _ _ _ _ Hi) Hu. rewrite (sinv_key _ _ _ _ Hi Hu).
    by eapply H5.
Qed.
