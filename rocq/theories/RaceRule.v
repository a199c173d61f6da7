(** A rule for proofs about calls of several clients that race for a key. *)
From Verif Require Import Bytes BytesFacts Utf8 Float64 Value CommandId Request Response
  Metrics Prog Commands EngineSpec WireSpec RequestSpec RequestFacts HistorySpec ProgFacts
  CommandFacts SafeFacts EngineFacts EngineProps HistoryFacts Concurrent ConcSpec ConcFacts ConcProps
  Scripts LinSpec LinFacts KeyLinSpec KeyLin KeyLinFacts IsoSpec IsoFacts ScriptInv SetRaceSpec SetRaceFacts.
From stdpp Require Import gmap list.
From Coq Require Import NArith ZArith Lia.
From Coq Require Import ZifyBool ZifyNat ZifyN.

Section rule.
  Context (scripts : list (list call)) (s0 : store).
  Hypothesis Hroom : room_for_all scripts s0.
  (** [J sooner now s]: [now a] is what call [a] is at, [sooner a b] says that [a] returned before [b] began. *)
  Context (J : (nat * nat -> nat * nat -> Prop) -> (nat * nat -> option tstate) -> store -> Prop).

  Hypothesis Jext : forall bf N N' s, (forall ij, N ij = N' ij) -> J bf N s -> J bf N' s.
  Hypothesis Jmore : forall (bf bf' : nat * nat -> nat * nat -> Prop) N s,
    (forall a b, bf' a b -> bf a b \/ ((exists r, N a = Some (TDone r)) /\ N b = None)) ->
    J bf N s -> J bf' N s.
  Hypothesis Jbegin : forall bf N s ij c, J bf N s -> call_at scripts ij = Some c -> N ij = None ->
    J bf (upd N ij (tstart c)) s.
  Hypothesis Jstep : forall bf N s s' ij c q q', J bf N s -> call_at scripts ij = Some c ->
    N ij = Some (TRun q) ->
    within (uses (c_req c)) (may_write (c_req c)) (r_command (c_req c) = CStats) q ->
    pstep q s = Some (q', s') -> J bf (upd N ij (TRun q')) s'.
  Hypothesis Jret : forall bf N s s' ij c x r, J bf N s -> call_at scripts ij = Some c -> N ij = Some x ->
    ret x r -> st_keys s' = st_keys s -> J bf (upd N ij (TDone r)) s'.
  Hypothesis Jinit : J (fun _ _ => False) (fun _ => None) s0.

  Definition JP (bf : nat * nat -> nat * nat -> Prop) (vs : list view) (s : store) : Prop := J bf (now_of vs) s.

  Lemma JP_begin bf vs s i sc c d : JP bf vs s -> scripts !! i = Some sc ->
    vs !! i = Some (d, None) -> sc !! length d = Some c -> JP bf (<[i := (d, Some (tstart c))]> vs) s.
  Proof.
    intros HP Hsc Hv Hc. unfold JP. eapply Jext; [intros ij; symmetry; by apply (now_of_step _ _ _ _ _ Hv)|].
    apply Jbegin; [done|by eapply call_at_here|by eapply now_of_here].
  Qed.

  Lemma JP_run bf vs s i sc c d q q' s' : JP bf vs s -> scripts !! i = Some sc ->
    vs !! i = Some (d, Some (TRun q)) -> sc !! length d = Some c -> quiet q ->
    within (uses (c_req c)) (may_write (c_req c)) (r_command (c_req c) = CStats) q ->
    pstep q s = Some (q', s') -> JP bf (<[i := (d, Some (TRun q'))]> vs) s'.
  Proof.
    intros HP Hsc Hv Hc _ Hwi Hst. unfold JP.
    eapply Jext; [intros ij; symmetry; by apply (now_of_step _ _ _ _ _ Hv)|].
    eapply Jstep; [done|by eapply call_at_here|by eapply now_of_here|done|done].
  Qed.

  Lemma JP_count bf vs s i sc c d r s' : JP bf vs s -> scripts !! i = Some sc ->
    vs !! i = Some (d, Some (TRun (PRet r))) -> sc !! length d = Some c -> r <> CPanic ->
    st_keys s' = st_keys s -> st_counters s' = cbump r (st_counters s) ->
    JP bf (<[i := (d, Some (TDone r))]> vs) s'.
  Proof.
    intros HP Hsc Hv Hc _ Es _. unfold JP.
    eapply Jext; [intros ij; symmetry; by apply (now_of_step _ _ _ _ _ Hv)|].
    eapply Jret; [done|by eapply call_at_here|by eapply now_of_here|by left|done].
  Qed.

  Lemma JP_return bf vs s i sc c d x r : JP bf vs s -> scripts !! i = Some sc ->
    vs !! i = Some (d, Some x) -> sc !! length d = Some c ->
    (x = TDone r \/ (r = CPanic /\ x = TRun (PRet CPanic))) -> JP bf (<[i := (d ++ [r], None)]> vs) s.
  Proof.
    intros HP Hsc Hv Hc Hx. unfold JP.
    eapply Jext; [intros ij; symmetry; by apply (now_of_return _ _ _ _ _ Hv)|].
    eapply Jret; [done|by eapply call_at_here|by eapply now_of_here| |done].
    destruct Hx as [->|[-> ->]]; [by right|by left].
  Qed.

  Lemma race_rule sched x : sys_run sched (begin scripts s0) = Some x ->
    exists vs, rinv scripts s0 (JP (before scripts s0 sched)) vs x.
  Proof.
    revert x. induction sched as [|i sched IH] using rev_ind; intros x Hr.
    - assert (Hnone : forall ij, now_of (map (fun _ : list call => ([], None)) scripts) ij = None).
      { intros ij. unfold now_of. change (map ?f scripts) with (f <$> scripts).
        rewrite list_lookup_fmap. destruct (scripts !! ij.1); [|done]. cbn. by destruct (decide _). }
      assert (Hnb : forall a b, ~ before scripts s0 [] a b).
      { intros a b (n & y & r & _ & Hy & Hret & _). rewrite take_nil in Hy. injection Hy as <-.
        destruct Hret as (cl & Hcl & Hd). cbn in Hcl. change (map ?f scripts) with (f <$> scripts) in Hcl.
        rewrite list_lookup_fmap in Hcl. destruct (scripts !! a.1); [|done]. injection Hcl as <-. done. }
      eapply (scripts_inv scripts s0 Hroom (JP (before scripts s0 [])));
        [intros; by eapply JP_begin|intros; by eapply JP_run|intros; by eapply JP_count|intros; by eapply JP_return| |done].
      unfold JP. eapply Jext; [intros ij; symmetry; apply Hnone|].
      eapply Jmore; [|exact Jinit]. intros a b H. by destruct (Hnb a b).
    - rewrite sys_run_app in Hr. destruct (sys_run sched (begin scripts s0)) as [z|] eqn:Hz; [|done].
      cbn in Hr. destruct (sys_step i z) as [z'|] eqn:Hs; [|done]. injection Hr as <-.
      destruct (IH z eq_refl) as [vs Hvs]. pose proof Hs as Hs0.
      eapply (rinv_step scripts s0 Hroom (JP (before scripts s0 sched))) in Hs as [vs' Hvs'];
        [|intros; by eapply JP_begin|intros; by eapply JP_run|intros; by eapply JP_count|intros; by eapply JP_return|done].
      exists vs'. pose proof Hvs' as (A & B & C & D & E). split_and!; try done.
      eapply Jmore; [|exact E]. intros a b (n & y & r & Hn & Hy & Ha & Hb).
      rewrite app_length in Hn. cbn in Hn. destruct (decide (n <= length sched)) as [Hle|Hgt].
      + left. rewrite take_app_le in Hy by done. by exists n, y, r.
      + right. rewrite firstn_all2 in Hy by (rewrite app_length; cbn; lia).
        rewrite sys_run_app, Hz in Hy. cbn in Hy. rewrite Hs0 in Hy. injection Hy as <-.
        split; [exists r; by eapply now_of_returned|by eapply now_of_not_begun].
  Qed.
End rule.
