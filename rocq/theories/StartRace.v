(** Clients that add to a key that is not there yet: proofs (C120). *)
From Verif Require Import Bytes BytesFacts Utf8 Float64 Value CommandId Request Response
  Metrics Prog Commands EngineSpec WireSpec RequestSpec RequestFacts HistorySpec ProgFacts
  CommandFacts SafeFacts EngineFacts EngineProps HistoryFacts Locks LockSpec LockScripts LockScriptSpec
  Concurrent ConcSpec ConcFacts ConcProps ConcExact
  Scripts LinSpec LinFacts KeyLinSpec KeyLin KeyLinFacts IsoSpec IsoFacts ScriptInv LockScriptFacts
  SetRaceSpec SetRaceFacts RaceRule TakeRaceFacts StartRaceSpec.
From stdpp Require Import gmap list.
From Coq Require Import NArith ZArith Lia.
From Coq Require Import ZifyBool ZifyNat ZifyN.

Section start.
  Context {A : Type} (k : bytes) (scripts : list (list call)) (s0 : store)
    (amount : call -> A -> Prop) (total : list A -> value) (okd : A -> Prop).
  Notation adds := (adds_there scripts amount).
  Notation nn := (nat * nat)%type.

  (** What an update does. *)
  Definition good_upd (c : call) (u : value -> value * cres) : Prop :=
    forall d ds, amount c d -> length ds < length (concat scripts) -> Forall okd ds ->
    exists r, u (total ds) = (total (ds ++ [d]), r) /\ responds (c_env c) (c_res c) (total (ds ++ [d])) r.

  Hypothesis Hprog : forall c d, issued scripts c -> amount c d ->
    exists u, command_prog (c_env c) (c_req c) (c_res c) = PKoi k (total []) u PRet /\ good_upd c u.
  Hypothesis Hokd : forall c d, issued scripts c -> amount c d -> okd d.
  Hypothesis Hwr : forall c d, amount c d -> may_write (c_req c) k.
  Hypothesis Hall : forall c, issued scripts c -> (exists d, amount c d) \/ ~ may_write (c_req c) k.
  Hypothesis H0 : st_keys s0 !! k = None.

  Definition waiting (c : call) (x : tstate) : Prop :=
    exists u, x = TRun (PKoi k (total []) u PRet) /\ good_upd c u.
  Definition about_to (c : call) (x : tstate) : Prop :=
    exists u, x = TRun (PKoiIns k (total []) u PRet) /\ good_upd c u.
  Definition told (a : nn) (c : call) (r : cres) : Prop :=
    exists l es, NoDup (l ++ [a]) /\ Forall2 adds (l ++ [a]) es /\ responds (c_env c) (c_res c) (total es) r.
  Definition lost (bf : nn -> nn -> Prop) (N : nn -> option tstate) (out : list nn) (a : nn) : Prop :=
    exists b, may_undo adds bf a b /\ is_Some (N b) /\
      (b ∈ out \/ forall y r, N b = Some y -> ~ ret y r).
  Definition stage (bf : nn -> nn -> Prop) (N : nn -> option tstate) (out : list nn) (a : nn) (c : call)
    (x : tstate) : Prop :=
    waiting c x \/ (about_to c x /\ forall a' d', adds a' d' -> ~ bf a' a) \/
    exists r, ret x r /\ told a c r /\ (a ∉ out -> lost bf N out a).

  Definition sinv_at (out : list nn) (ds : list A) (bf : nn -> nn -> Prop) (N : nn -> option tstate) (s : store) : Prop :=
    NoDup out /\ Forall2 adds out ds /\
    (forall a, a ∈ out -> exists x r, N a = Some x /\ ret x r) /\
    (st_keys s !! k = Some (total ds) \/
     (st_keys s !! k = None /\ out = [] /\ forall a d x r, adds a d -> N a = Some x -> ~ ret x r)) /\
    (forall a c d x, call_at scripts a = Some c -> amount c d -> N a = Some x -> stage bf N out a c x) /\
    (forall i a c x r, out !! i = Some a -> call_at scripts a = Some c -> N a = Some x -> ret x r ->
       responds (c_env c) (c_res c) (total (take (S i) ds)) r) /\
    (forall a b, bf a b -> exists r, N a = Some (TDone r)) /\
    (forall i j a b, out !! i = Some a -> out !! j = Some b -> bf a b -> i < j).
  Definition start_inv (bf : nn -> nn -> Prop) (N : nn -> option tstate) (s : store) : Prop :=
    exists out ds, sinv_at out ds bf N s.

  Lemma ret_one x r r' : ret x r -> ret x r' -> r' = r.
  Proof. intros [->| ->] [E|E]; congruence. Qed.

  Lemma waiting_not_ret c x r : waiting c x -> ~ ret x r.
  Proof. intros (u & -> & _) [?|?]; done. Qed.
  Lemma about_not_ret c x r : about_to c x -> ~ ret x r.
  Proof. intros (u & -> & _) [?|?]; done. Qed.

  Lemma lost_ext bf (N N' : nn -> option tstate) out a : (forall ij, N ij = N' ij) -> lost bf N out a -> lost bf N' out a.
  Proof. intros E (b & A1 & A2 & A3). exists b. by rewrite <-!E. Qed.

  Lemma start_ext bf N N' s : (forall ij, N ij = N' ij) -> start_inv bf N s -> start_inv bf N' s.
  Proof.
    intros E (out & ds & H1 & H2 & H3 & H4 & H5 & H6 & H7 & H8). exists out, ds. split_and!; try done.
    - intros a Ha. destruct (H3 a Ha) as (x & r & ? & ?). exists x, r. by rewrite <-E.
    - destruct H4 as [?|(A1 & A2 & A3)]; [by left|right]. split_and!; try done. intros a d x r. rewrite <-E. eauto.
    - intros a c d x Hc Hd. rewrite <-E. intros Hx. destruct (H5 a c d x Hc Hd Hx) as [?|[?|(r & ? & ? & Hl)]];
        [by left|by right; left|right; right]. exists r. split_and!; try done. intros Hn. eapply lost_ext; [done|by apply Hl].
    - intros i a c x r. rewrite <-E. eauto.
    - intros a b. rewrite <-E. eauto.
  Qed.

  Lemma start_more (bf bf' : nn -> nn -> Prop) N s :
    (forall a b, bf' a b -> bf a b \/ ((exists r, N a = Some (TDone r)) /\ N b = None)) ->
    start_inv bf N s -> start_inv bf' N s.
  Proof.
    intros Hb (out & ds & H1 & H2 & H3 & H4 & H5 & H6 & H7 & H8). exists out, ds.
    assert (Hold : forall a b x, N b = Some x -> bf' a b -> bf a b).
    { intros a b x Hx H. destruct (Hb _ _ H) as [?|[_ ?]]; [done|congruence]. }
    split_and!; try done.
    - intros a c d x Hc Hd Hx. destruct (H5 a c d x Hc Hd Hx) as [?|[(A1 & A2)|(r & ? & ? & Hl)]].
      + by left.
      + right. left. split; [done|]. intros a' d' Ha' Hbf. by apply (A2 a' d' Ha'), (Hold _ _ _ Hx).
      + right. right. exists r. split_and!; try done. intros Hn. destruct (Hl Hn) as (b & (B1 & B2 & B3 & B4) & [y Hy] & B5).
        exists b. split; [|split; [by exists y|done]]. split_and!; try done.
        * intros Hbf. by apply B3, (Hold _ _ _ Hx).
        * intros a' d' Ha' Hbf. by apply (B4 a' d' Ha'), (Hold _ _ _ Hy).
    - intros a b Hab. destruct (Hb a b Hab) as [H|[H _]]; [by eapply H7|done].
    - intros i j a b Hi Hj Hab. destruct (H3 b) as (x & r & Hx & _); [by eapply elem_of_list_lookup_2|].
      eapply H8; [done|done|]. by eapply Hold.
  Qed.

  Lemma adds_amount_at a c d : call_at scripts a = Some c -> adds a d -> amount c d.
  Proof. intros Hc (c' & Hc' & Hd). by assert (c' = c) as -> by congruence. Qed.

  (** A step that does not add and does not undo. *)
  Lemma sinv_keep out ds bf N s s' ij c x' : sinv_at out ds bf N s -> call_at scripts ij = Some c ->
    st_keys s' !! k = st_keys s !! k ->
    (forall r, N ij = Some (TDone r) -> exists r', x' = TDone r') ->
    (forall d, amount c d -> (forall r, ret x' r <-> exists x, N ij = Some x /\ ret x r) /\ stage bf N out ij c x') ->
    sinv_at out ds bf (upd N ij x') s'.
  Proof.
    intros (H1 & H2 & H3 & H4 & H5 & H6 & H7 & H8) Hc Ek Hd Hx.
    assert (Hone : forall c', call_at scripts ij = Some c' -> c' = c) by congruence.
    assert (Hout : forall a, a ∈ out -> exists d, adds a d).
    { intros a [i Hi]%elem_of_list_lookup. destruct (Forall2_lookup_l _ _ _ _ _ H2 Hi) as (d & _ & ?). eauto. }
    assert (Hlost : forall a, lost bf N out a -> lost bf (upd N ij x') out a).
    { intros a (b & (B1 & [db B2] & B3 & B4) & [y Hy] & B5). exists b. split; [split_and!; eauto|]. split.
      - destruct (decide (b = ij)) as [->|Hne]; [rewrite upd_same; eauto|rewrite upd_other by done; eauto].
      - destruct B5 as [?|B5]; [by left|right]. intros z r. destruct (decide (b = ij)) as [->|Hne].
        + rewrite upd_same. intros [= <-] Hr. destruct (Hx db) as [E _]; [by eapply adds_amount_at|].
          apply E in Hr as (x & Hxn & Hr). by apply (B5 x r).
        + rewrite upd_other by done. by apply B5. }
    assert (Hstage : forall a ca x, stage bf N out a ca x -> stage bf (upd N ij x') out a ca x).
    { intros a ca x [?|[?|(r & ? & ? & Hl)]]; [by left|by right; left|right; right]. exists r. split_and!; try done.
      intros Hn. by apply Hlost, Hl. }
    split_and!; try done.
    - intros a Ha. destruct (H3 a Ha) as (x & r & Hxa & Hr). destruct (decide (a = ij)) as [->|Hne].
      + destruct (Hout _ Ha) as [d Hda]. destruct (Hx d) as [E _]; [by eapply adds_amount_at|].
        exists x', r. rewrite upd_same. split; [done|]. apply E. eauto.
      + exists x, r. by rewrite upd_other.
    - rewrite Ek. destruct H4 as [?|(A1 & A2 & A3)]; [by left|right]. split_and!; try done.
      intros a d x r Had. destruct (decide (a = ij)) as [->|Hne].
      + rewrite upd_same. intros [= <-] Hr. destruct (Hx d) as [E _]; [by eapply adds_amount_at|].
        apply E in Hr as (x & Hxn & Hr). by eapply A3.
      + rewrite upd_other by done. by eapply A3.
    - intros a c' d x Hc' Hda. destruct (decide (a = ij)) as [->|Hne].
      + rewrite upd_same. intros [= <-]. apply Hone in Hc' as ->. apply Hstage. by eapply Hx.
      + rewrite upd_other by done. intros Hxa. apply Hstage. by eapply H5.
    - intros i a c' x r Hi Hc'. destruct (decide (a = ij)) as [->|Hne].
      + rewrite upd_same. intros [= <-] Hr. apply Hone in Hc' as ->.
        destruct (Hout ij) as [d Hda]; [by eapply elem_of_list_lookup_2|].
        destruct (Hx d) as [E _]; [by eapply adds_amount_at|]. apply E in Hr as (x & Hxn & Hr). by eapply H6.
      + rewrite upd_other by done. by apply H6.
    - intros a b Hab. destruct (H7 a b Hab) as [r Hr]. destruct (decide (a = ij)) as [->|Hne].
      + rewrite upd_same. destruct (Hd _ Hr) as [r' ->]. eauto.
      + rewrite upd_other by done. eauto.
  Qed.

  Lemma out_okd out ds : Forall2 adds out ds -> Forall okd ds.
  Proof.
    induction 1 as [|a d out ds (c & Hc & Hd) _ IH]; constructor; [|done]. eapply Hokd; [|done]. by exists a.
  Qed.

  Lemma out_length out ds a d : Forall2 adds out ds -> NoDup out -> a ∉ out -> adds a d ->
    length ds < length (concat scripts).
  Proof.
    intros H Hn Ha (c & Hc & _). rewrite <-(Forall2_length _ _ _ H), <-(all_calls_length scripts).
    apply (submseteq_length (a :: out) (all_calls scripts)), NoDup_submseteq; [by constructor|].
    intros b [->|Hb]%elem_of_cons; [by eapply all_calls_in|]. apply elem_of_list_lookup in Hb as [i Hi].
    destruct (Forall2_lookup_l _ _ _ _ _ H Hi) as (d' & _ & c' & Hc' & _). by eapply all_calls_in.
  Qed.

  (** The step that adds. *)
  Lemma sinv_add out ds bf N s s' ij c d q u : sinv_at out ds bf N s -> call_at scripts ij = Some c -> amount c d ->
    N ij = Some (TRun q) -> q = PKoi k (total []) u PRet -> good_upd c u ->
    st_keys s !! k = Some (total ds) -> s' = with_keys s (<[k := (u (total ds)).1]> (st_keys s)) ->
    sinv_at (out ++ [ij]) (ds ++ [d]) bf (upd N ij (TRun (PRet (u (total ds)).2))) s'.
  Proof.
    intros (H1 & H2 & H3 & H4 & H5 & H6 & H7 & H8) Hc Hd Hn -> Hu Hk ->.
    assert (Hone : forall c', call_at scripts ij = Some c' -> c' = c) by congruence.
    assert (Hadd : adds ij d) by (by exists c).
    assert (Hnot : ij ∉ out).
    { intros Hin. destruct (H3 _ Hin) as (x & r & Hx & Hr). rewrite Hn in Hx. injection Hx as <-.
      by destruct Hr. }
    assert (Hnd : NoDup (out ++ [ij])).
    { apply NoDup_app. split_and!; [done| |apply NoDup_singleton]. intros a Ha ->%elem_of_list_singleton. done. }
    assert (H2' : Forall2 adds (out ++ [ij]) (ds ++ [d])) by (apply Forall2_app; [done|by constructor]).
    destruct (Hu d ds Hd) as (r & Er & Hr); [by eapply out_length|by eapply out_okd|]. rewrite Er. cbn [fst snd].
    assert (Hlen : length out = length ds) by (by eapply Forall2_length).
    assert (Htold : told ij c r) by (exists out, (ds ++ [d]); done).
    assert (Hlost : forall a, lost bf N out a -> lost bf (upd N ij (TRun (PRet r))) (out ++ [ij]) a).
    { intros a (b & Hmu & [y Hy] & B5). exists b. split; [done|].
      destruct (decide (b = ij)) as [->|Hne].
      - rewrite upd_same. split; [eauto|]. left. set_solver.
      - rewrite upd_other by done. split; [eauto|]. destruct B5 as [?|?]; [left; set_solver|by right]. }
    split_and!; try done.
    - intros a [Ha|Ha]%elem_of_app.
      + destruct (decide (a = ij)) as [->|Hne]; [done|]. rewrite upd_other by done. by apply H3.
      + apply elem_of_list_singleton in Ha as ->. exists (TRun (PRet r)), r. rewrite upd_same. split; [done|by left].
    - left. by rewrite st_keys_with, lookup_insert.
    - intros a c' d' x Hc' Hd'. destruct (decide (a = ij)) as [->|Hne].
      + rewrite upd_same. intros [= <-]. apply Hone in Hc' as ->. right. right. exists r.
        split; [by left|]. split; [done|]. intros Hna. destruct Hna. set_solver.
      + rewrite upd_other by done. intros Hx. destruct (H5 a c' d' x Hc' Hd' Hx) as [?|[?|(r' & ? & ? & Hl)]];
          [by left|by right; left|right; right]. exists r'. split_and!; try done. intros Hna. apply Hlost, Hl. set_solver.
    - intros i a c' x r' Hi Hc'. destruct (decide (a = ij)) as [->|Hne].
      + rewrite upd_same. intros [= <-] Hr'. apply Hone in Hc' as ->.
        assert (r' = r) as -> by (eapply ret_one; [|done]; by left).
        assert (i = length out) as ->.
        { eapply NoDup_lookup; [exact Hnd|done|]. rewrite lookup_app_r by lia. by rewrite Nat.sub_diag. }
        rewrite take_ge by (rewrite app_length; cbn; lia). done.
      + rewrite upd_other by done. intros Hx Hr'.
        apply lookup_app_Some in Hi as [Hi|[Hge Hi]].
        * apply lookup_lt_Some in Hi as Hlt. rewrite take_app_le by lia. by eapply H6.
        * destruct (i - length out) eqn:E; cbn in Hi; [congruence|done].
    - intros a b Hab. destruct (H7 a b Hab) as [r' Hr']. destruct (decide (a = ij)) as [->|Hne]; [congruence|].
      rewrite upd_other by done. eauto.
    - intros i j a b Hi Hj Hab. destruct (H7 a b Hab) as [ra Hra].
      apply lookup_app_Some in Hi as [Hi|[Hge Hi]].
      2: { destruct (i - length out) eqn:E; cbn in Hi; [|done]. assert (ij = a) as <- by congruence. congruence. }
      apply lookup_app_Some in Hj as [Hj|[Hge Hj]]; [by eapply H8|]. apply lookup_lt_Some in Hi. lia.
  Qed.

  (** The step that undoes. *)
  Lemma sinv_undo out ds bf N s s' ij c d q u : sinv_at out ds bf N s -> call_at scripts ij = Some c -> amount c d ->
    N ij = Some (TRun q) -> q = PKoiIns k (total []) u PRet -> good_upd c u ->
    (forall a' d', adds a' d' -> ~ bf a' ij) -> s' = with_keys s (<[k := total []]> (st_keys s)) ->
    sinv_at [] [] bf (upd N ij (TRun (PKoi k (total []) u PRet))) s'.
  Proof.
    intros (H1 & H2 & H3 & H4 & H5 & H6 & H7 & H8) Hc Hd Hn -> Hu Hbf ->.
    assert (Hone : forall c', call_at scripts ij = Some c' -> c' = c) by congruence.
    split_and!; try done.
    - constructor.
    - intros a Ha. by apply elem_of_nil in Ha.
    - left. by rewrite st_keys_with, lookup_insert.
    - intros a c' d' x Hc' Hd'. destruct (decide (a = ij)) as [->|Hne].
      + rewrite upd_same. intros [= <-]. apply Hone in Hc' as ->. left. by exists u.
      + rewrite upd_other by done. intros Hx. destruct (H5 a c' d' x Hc' Hd' Hx) as [?|[?|(r' & ? & ? & Hl)]];
          [by left|by right; left|right; right]. exists r'. split_and!; try done. intros _.
        exists ij. split; [|rewrite upd_same; split; [eauto|]].
        * split_and!; [done|exists d; by exists c| |done]. intros Hb. destruct (H7 _ _ Hb). congruence.
        * right. intros y r [= <-] [?|?]; done.
    - intros a b Hab. destruct (H7 a b Hab) as [r' Hr']. destruct (decide (a = ij)) as [->|Hne]; [congruence|].
      rewrite upd_other by done. eauto.
  Qed.

  Lemma start_step bf N s s' ij c q q' : start_inv bf N s -> call_at scripts ij = Some c -> N ij = Some (TRun q) ->
    within (uses (c_req c)) (may_write (c_req c)) (r_command (c_req c) = CStats) q ->
    pstep q s = Some (q', s') -> start_inv bf (upd N ij (TRun q')) s'.
  Proof.
    intros (out & ds & Hinv) Hc Hn Hwi Hst. pose proof Hinv as (H1 & H2 & H3 & H4 & H5 & H6 & H7 & H8).
    assert (Hi : issued scripts c) by (by exists ij).
    destruct (within_pstep _ _ _ _ _ _ _ Hwi Hst) as [_ Hkeep].
    assert (Hnd : forall y r, N ij = Some (TDone r) -> exists r', y = TDone r') by (intros y r E; congruence).
    destruct (Hall c Hi) as [[d Hd]|Hno].
    2: { exists out, ds. eapply sinv_keep; try done; try (by intros r E; apply (Hnd _ r)).
      - by apply Hkeep.
      - intros d Hd. destruct Hno. by eapply Hwr. }
    destruct (H5 ij c d _ Hc Hd Hn) as [(u & [= ->] & Hu)|[((u & [= ->] & Hu) & Hbf)|(r & Hr & _)]].
    - cbn in Hst. destruct H4 as [Hk|(Hk & -> & Hnone)].
      + rewrite Hk in Hst. destruct (u (total ds)) as [v' r] eqn:E. injection Hst as <- <-.
        exists (out ++ [ij]), (ds ++ [d]).
        replace r with ((u (total ds)).2) by (by rewrite E). eapply sinv_add; try done. by rewrite E.
      + rewrite Hk in Hst. injection Hst as <- <-. exists [], ds. eapply sinv_keep; try done; try (by intros r E; apply (Hnd _ r)).
        intros d' Hd'. split.
        * intros r. split; [by intros [?|?]|]. intros (x & Hx & Hr). rewrite Hn in Hx. injection Hx as <-. by destruct Hr.
        * right. left. split; [by exists u|]. intros a' e' Ha' Hb. destruct (H7 _ _ Hb) as [r Hr].
          eapply Hnone; [exact Ha'|exact Hr|by right].
    - cbn in Hst. injection Hst as <- <-. exists [], []. by eapply sinv_undo.
    - destruct Hr as [[= ->]|?]; done.
  Qed.

  Lemma start_begin bf N s ij c : start_inv bf N s -> call_at scripts ij = Some c -> N ij = None ->
    start_inv bf (upd N ij (tstart c)) s.
  Proof.
    intros (out & ds & Hinv) Hc Hn. exists out, ds. eapply sinv_keep; try done.
    - intros r E. congruence.
    - intros d Hd. destruct (Hprog c d) as (u & E & Hu); [by exists ij|done|]. unfold tstart. rewrite E. split.
      + intros r. split; [by intros [?|?]|]. intros (x & Hx & _). congruence.
      + left. by exists u.
  Qed.

  Lemma start_ret bf N s s' ij c x r : start_inv bf N s -> call_at scripts ij = Some c -> N ij = Some x -> ret x r ->
    st_keys s' = st_keys s -> start_inv bf (upd N ij (TDone r)) s'.
  Proof.
    intros (out & ds & Hinv) Hc Hn Hx Es. pose proof Hinv as (H1 & H2 & H3 & H4 & H5 & _). exists out, ds.
    eapply sinv_keep; try done.
    - by rewrite Es.
    - eauto.
    - intros d Hd. split.
      + intros r'. split.
        * intros Hr'. assert (r' = r) as -> by (eapply ret_one; [|done]; by right). eauto.
        * intros (y & Hy & Hr'). assert (y = x) as -> by congruence. rewrite (ret_one _ _ _ Hx Hr'). by right.
      + destruct (H5 ij c d x Hc Hd Hn) as [Hw|[[Hw _]|(r' & Hr' & Ht & Hl)]].
        * by destruct (waiting_not_ret _ _ _ Hw Hx).
        * by destruct (about_not_ret _ _ _ Hw Hx).
        * right. right. exists r. split; [by right|]. by rewrite <-(ret_one _ _ _ Hx Hr').
  Qed.

  Lemma start_init : start_inv (fun _ _ => False) (fun _ => None) s0.
  Proof.
    exists [], []. split_and!; try done.
    - constructor.
    - intros a Ha. by apply elem_of_nil in Ha.
    - by right.
  Qed.

  Hypothesis Hroom : room_for_all scripts s0.

  Lemma started sched x : sys_run sched (begin scripts s0) = Some x ->
    exists out ds, made_of_adds adds total (before scripts s0 sched) (has_returned x) (was_told scripts x)
      (st_keys x.2 !! k) out ds.
  Proof.
    intros Hr.
    assert (exists vs, rinv scripts s0 (JP start_inv (before scripts s0 sched)) vs x) as [vs Hvs].
    { eapply race_rule; try done.
      - intros. by eapply start_ext.
      - intros. by eapply start_more.
      - intros. by eapply start_begin.
      - intros. by eapply start_step.
      - intros. by eapply start_ret.
      - by apply start_init. }
    pose proof Hvs as (_ & _ & _ & _ & (out & ds & H1 & H2 & H3 & H4 & H5 & H6 & H7 & H8)).
    assert (Hnow : forall a r, returned x a r -> now_of vs a = Some (TDone r))
      by (intros a r Ha; by eapply now_of_returned).
    exists out, ds. split_and!; try done.
    - destruct H4 as [?|(A1 & A2 & A3)]; [by left|right]. split_and!; try done. intros a d Had [r Hret%Hnow].
      eapply A3; [done|done|by right].
    - intros i a Hi [r Hret]. destruct (Forall2_lookup_l _ _ _ _ _ H2 Hi) as (d & _ & c & Hc & _).
      exists c, r. split; [done|]. split; [done|]. apply Hnow in Hret. eapply H6; try done. by right.
    - intros a d (c & Hc & Hd) [r Hret]. pose proof (Hnow _ _ Hret) as Hn.
      destruct (H5 a c d _ Hc Hd Hn) as [Hw|[[Hw _]|(r' & Hr' & (l & es & ? & ? & ?) & _)]].
      + by destruct (waiting_not_ret _ _ r Hw); right.
      + by destruct (about_not_ret _ _ r Hw); right.
      + assert (r' = r) as -> by (eapply ret_one; [|done]; by right). exists l, es. split; [done|]. split; [done|].
        by exists c, r.
    - intros a d (c & Hc & Hd) [r Hret%Hnow] Hna. destruct (H5 a c d _ Hc Hd Hret) as [Hw|[[Hw _]|(r' & Hr' & _ & Hl)]].
      + by destruct (waiting_not_ret _ _ r Hw); right.
      + by destruct (about_not_ret _ _ r Hw); right.
      + destruct (Hl Hna) as (b & Hmu & [y Hy] & Hb). exists b. split; [done|].
        destruct Hb as [?|Hb]; [by left|right]. intros [r1 Hret1%Hnow]. eapply Hb; [done|by right].
  Qed.
End start.

(** With the locks of the map. *)
Lemma adds_locked {A} sh k scripts s0 (adds : nat * nat -> A -> Prop) total lsched x :
  (forall sched y, sys_run sched (begin scripts s0) = Some y ->
     exists out ds, made_of_adds adds total (before scripts s0 sched) (has_returned y) (was_told scripts y)
       (st_keys y.2 !! k) out ds) ->
  lsys_run sh lsched (lbegin scripts s0) = Some x ->
  exists now out ds, (unlocked sh x k -> st_keys x.2 !! k = now) /\
    made_of_adds adds total (lbefore sh scripts s0 lsched) (lhas_returned x) (lwas_told scripts x) now out ds.
Proof.
  intros H Hr. destruct (lock_transfer _ _ _ _ _ Hr) as (sched & y & f & Hy & Hi & _ & _ & _ & Hb).
  destruct (H sched y Hy) as (out & ds & H1 & H2 & H3 & H4 & H5 & H6 & H7).
  assert (Hov : forall a, lhas_returned x a -> has_returned y a).
  { intros a [r Hret%(sinv_returned _ _ _ _ _ Hi)]. by exists r. }
  assert (Hsay : forall a v, lhas_returned x a -> was_told scripts y a v -> lwas_told scripts x a v).
  { intros a v [r Hret] (c & r' & Hc & Hr' & Hv). exists c, r. split; [done|]. split; [done|].
    apply (sinv_returned _ _ _ _ _ Hi) in Hret as (cl & Ea & Eb).
    destruct Hr' as (cl' & Ea' & Eb'). by assert (r' = r) as <- by congruence. }
  exists (st_keys y.2 !! k), out, ds. split.
  { intros Hu. by rewrite (sinv_key _ _ _ _ Hi Hu). }
  split_and!; try done.
  - destruct H3 as [?|(A1 & A2 & A3)]; [by left|right]. split_and!; try done. intros a d Ha Ho. by eapply A3, Hov.
  - intros i a Ha Ho. apply Hsay; [done|]. by apply H4, Hov.
  - intros i j a b Ha Hb' Hbf. eapply H5; [done|done|]. by apply Hb.
  - intros a d Ha Ho. destruct (H6 a d Ha (Hov _ Ho)) as (l & es & ? & ? & ?). exists l, es. auto.
  - intros a d Ha Ho Hn. destruct (H7 a d Ha (Hov _ Ho) Hn) as (b & (B1 & B2 & B3 & B4) & B5). exists b. split.
    + split_and!; [done|done|by intros ?%Hb|]. intros a' d' Ha' ?%Hb. by eapply B4.
    + destruct B5 as [?|B5]; [by left|right]. by intros ?%Hov.
Qed.

(** ** A counter *)

Lemma summed_more ds d : fold_right Z.add 0%Z (ds ++ [d]) = (fold_right Z.add 0 ds + d)%Z.
Proof. induction ds as [|e ds IH]; cbn; [lia|]. rewrite IH. lia. Qed.

Lemma summed_bound D ds : Forall (fun d => - D <= d <= D)%Z ds ->
  (- (D * Z.of_nat (length ds)) <= fold_right Z.add 0 ds <= D * Z.of_nat (length ds))%Z.
Proof.
  induction 1 as [|d ds Hd _ IH]; cbn [fold_right length]; [lia|].
  replace (D * Z.of_nat (S (length ds)))%Z with (D * Z.of_nat (length ds) + D)%Z by lia. lia.
Qed.

(** What the command does with what it finds, if it is an update of the key. *)
Lemma koi_dispatch c k d u (v w : value) :
  command_prog (c_env c) (c_req c) (c_res c) = PKoi k d u PRet ->
  let s := Store {[k := v]} ∅ in
  responds (c_env c) (c_res c) w (dispatch (c_env c) s (c_req c) (c_res c)).2 ->
  st_keys (dispatch (c_env c) s (c_req c) (c_res c)).1 = <[k := w]> (st_keys s) ->
  exists r, u v = (w, r) /\ responds (c_env c) (c_res c) w r.
Proof.
  intros Hp s Hr Hs.
  assert (Hroom : room s).
  { intros m. unfold count, s. cbn [st_counters]. rewrite lookup_empty. done. }
  destruct (dispatch_cmd (c_env c) s (c_req c) (c_res c) Hroom) as [E1 E2].
  rewrite E1 in Hr. rewrite E2 in Hs. rewrite Hp in Hr, Hs. cbn [run] in Hr, Hs.
  assert (Hk : st_keys s !! k = Some v) by (unfold s; cbn [st_keys]; apply lookup_singleton).
  rewrite Hk in Hr, Hs. cbn [default] in Hr, Hs. unfold id in *.
  destruct (u v) as [v' r]. cbn [run fst snd] in Hr, Hs. rewrite st_keys_with in Hs.
  exists r. split; [|done]. apply (f_equal (fun m => m !! k)) in Hs. rewrite !lookup_insert in Hs. congruence.
Qed.

Lemma c120_counter k scripts s0 D sched x :
  room_for_all scripts s0 -> envs_ok scripts -> ordinary k -> st_keys s0 !! k = None ->
  (forall c, issued scripts c -> (exists d, adds_int c k d) \/ ~ may_write (c_req c) k) ->
  (forall c d, issued scripts c -> adds_int c k d -> - D <= d <= D)%Z ->
  i64_range (D * Z.of_nat (length (concat scripts))) ->
  sys_run sched (begin scripts s0) = Some x ->
  exists out ds, made_of_adds (adds_there scripts (fun c => adds_int c k)) summed (before scripts s0 sched)
    (has_returned x) (was_told scripts x) (st_keys x.2 !! k) out ds.
Proof.
  intros Hroom Henv Hk H0 Hall HD Hrange Hr.
  eapply (started k scripts s0 (fun c => adds_int c k) summed (fun d => - D <= d <= D)%Z); try done.
  - intros c d Hi Hd. pose proof (HD c d Hi Hd) as Hdd.
    assert (Hlen : 1 <= length (concat scripts)).
    { destruct Hi as [a Ha]. rewrite <-(all_calls_length scripts). apply all_calls_in in Ha.
      destruct (all_calls scripts); [by apply elem_of_nil in Ha|cbn; lia]. }
    assert (HDn : (D <= D * Z.of_nat (length (concat scripts)))%Z).
    { transitivity (D * 1)%Z; [lia|]. apply Z.mul_le_mono_nonneg_l; lia. }
    assert (Hd64 : i64_range d) by (unfold i64_range in *; lia).
    pose proof (adds_int_sure _ _ _ Hd Hk Hd64) as Hsure. unfold tstart in Hsure.
    destruct (adds_int_prog _ _ _ Hd) as [[E _]|(u & E & _)].
    { rewrite E in Hsure. cbn in Hsure. by destruct Hsure. }
    exists u. split; [exact E|]. intros d' ds Hd' Hlt Hds.
    pose proof (HD c d' Hi Hd') as Hdd'. pose proof (summed_bound _ _ Hds) as Hb.
    assert (Hmul : (D * Z.of_nat (length ds) + D <= D * Z.of_nat (length (concat scripts)))%Z).
    { replace (D * Z.of_nat (length ds) + D)%Z with (D * Z.of_nat (S (length ds)))%Z by lia.
      apply Z.mul_le_mono_nonneg_l; lia. }
    assert (E1 : summed (ds ++ [d']) = VInteger (fold_right Z.add 0 ds + d')%Z) by (unfold summed; by rewrite summed_more).
    rewrite E1. destruct Hd' as (cmd & kt & l & Hq & Hch).
    destruct (c21_exact (c_env c) (Store {[k := summed ds]} ∅) (c_req c) (c_res c) cmd kt l k d' (fold_right Z.add 0 ds)%Z)
      as [F1 F2]; try done.
    + by apply Henv.
    + left. cbn [st_keys]. apply lookup_singleton.
    + unfold i64_range in *; lia.
    + unfold i64_range in *; lia.
    + by eapply koi_dispatch.
  - intros c d. by apply adds_int_writes.
Qed.

Lemma c120_counter_locked sh k scripts s0 D lsched x :
  room_for_all scripts s0 -> envs_ok scripts -> ordinary k -> st_keys s0 !! k = None ->
  (forall c, issued scripts c -> (exists d, adds_int c k d) \/ ~ may_write (c_req c) k) ->
  (forall c d, issued scripts c -> adds_int c k d -> - D <= d <= D)%Z ->
  i64_range (D * Z.of_nat (length (concat scripts))) ->
  lsys_run sh lsched (lbegin scripts s0) = Some x ->
  exists now out ds, (unlocked sh x k -> st_keys x.2 !! k = now) /\
    made_of_adds (adds_there scripts (fun c => adds_int c k)) summed (lbefore sh scripts s0 lsched)
      (lhas_returned x) (lwas_told scripts x) now out ds.
Proof. intros. eapply adds_locked; [|done]. intros. by eapply c120_counter. Qed.

(** ** Appends *)

Lemma strung_more t ls l : t = KTBytes \/ t = KTList \/ t = KTString ->
  (forall l', l' ∈ l :: ls -> is_Some (append_to (blank t) l')) ->
  append_to (strung t ls) l = Some (strung t (ls ++ [l])).
Proof.
  intros Ht H. destruct (H l) as [v Hv]; [by left|].
  destruct Ht as [->|[->| ->]]; cbn in *; rewrite ?concat_app; cbn; rewrite ?concat_app, ?app_nil_r; try done.
  by destruct (forallb utf8_valid l).
Qed.

Lemma append_is_koi c k t l : appends c k t l -> ordinary k -> t = KTBytes \/ t = KTList \/ t = KTString ->
  exists u, command_prog (c_env c) (c_req c) (c_res c) = PKoi k (blank t) u PRet.
Proof.
  intros (Hcmd & Hkt & Hc) Hk Ht. unfold command_prog. rewrite Hcmd. unfold cmd_append.
  destruct (spec_key_some (c_req c) CAppend k l) as (_ & -> & _ & Hargs & _); [done..|].
  assert (Hg : forall p, guarded (c_env c) k p = p).
  { intros p. unfold guarded. pose proof (ordinary_ok (debug (c_env c)) k Hk) as Hb. rewrite bad_key_guard in Hb.
    apply orb_false_iff in Hb as [-> ->]. done. }
  rewrite Hargs. unfold resolve_type. rewrite Hkt.
  destruct Ht as [->|[->| ->]]; unfold append_bytes, append_list, append_string, key_or_insert_with; rewrite Hg; by eexists.
Qed.

Lemma c120_log k scripts s0 t sched x :
  room_for_all scripts s0 -> envs_ok scripts -> ordinary k -> st_keys s0 !! k = None ->
  t = KTBytes \/ t = KTList \/ t = KTString ->
  (forall c, issued scripts c ->
     (exists l, appends c k t l /\ is_Some (append_to (blank t) l)) \/ ~ may_write (c_req c) k) ->
  sys_run sched (begin scripts s0) = Some x ->
  exists out ls, made_of_adds (adds_there scripts (fun c => appends c k t)) (strung t) (before scripts s0 sched)
    (has_returned x) (was_told scripts x) (st_keys x.2 !! k) out ls.
Proof.
  intros Hroom Henv Hk H0 Ht Hall Hr.
  assert (Hwr : forall c l, appends c k t l -> may_write (c_req c) k).
  { intros c l Ha. pose proof Ha as (Hcm & _). split; [by rewrite Hcm|]. left. by eapply asks_arg0. }
  assert (Hfit : forall c l, issued scripts c -> appends c k t l -> is_Some (append_to (blank t) l)).
  { intros c l Hi Ha. destruct (Hall c Hi) as [(l' & Ha' & Hl')|Hno]; [|destruct Hno; by eapply Hwr].
    destruct Ha as (_ & _ & Ha), Ha' as (_ & _ & Ha'). by pose proof (carries_unique _ _ _ Ha Ha') as [= <-]. }
  eapply (started k scripts s0 (fun c => appends c k t) (strung t) (fun l => is_Some (append_to (blank t) l))); try done.
  - intros c l Hi Ha. destruct (append_is_koi _ _ _ _ Ha Hk Ht) as (u & E).
    assert (Eb : strung t [] = blank t) by (by destruct Ht as [->|[->| ->]]).
    exists u. split; [by rewrite Eb|]. intros l' ls Ha' _ Hls.
    assert (Hm : append_to (strung t ls) l' = Some (strung t (ls ++ [l']))).
    { apply strung_more; [done|]. intros l1 [->|Hl1]%elem_of_cons; [by eapply Hfit|].
      rewrite Forall_forall in Hls. by apply Hls. }
    destruct (c24_append (c_env c) (Store {[k := strung t ls]} ∅) (c_req c) (c_res c) (Some t) k l' t (strung t ls)
      (strung t (ls ++ [l']))) as [F1 F2]; try done.
    + by apply Henv.
    + by left.
    + split; [by destruct Ht as [->|[->| ->]]|]. left. cbn [st_keys]. apply lookup_singleton.
    + by eapply koi_dispatch.
  - intros c Hi. destruct (Hall c Hi) as [(l & ? & _)|?]; [left; by exists l|by right].
Qed.

Lemma c120_log_locked sh k scripts s0 t lsched x :
  room_for_all scripts s0 -> envs_ok scripts -> ordinary k -> st_keys s0 !! k = None ->
  t = KTBytes \/ t = KTList \/ t = KTString ->
  (forall c, issued scripts c ->
     (exists l, appends c k t l /\ is_Some (append_to (blank t) l)) \/ ~ may_write (c_req c) k) ->
  lsys_run sh lsched (lbegin scripts s0) = Some x ->
  exists now out ls, (unlocked sh x k -> st_keys x.2 !! k = now) /\
    made_of_adds (adds_there scripts (fun c => appends c k t)) (strung t) (lbefore sh scripts s0 lsched)
      (lhas_returned x) (lwas_told scripts x) now out ls.
Proof. intros. eapply adds_locked; [|done]. intros. by eapply c120_log. Qed.

(** Once every call that began before the first one was over has returned, nothing is lost. *)
Lemma c120_kept {A} (adds : nat * nat -> A -> Prop) total bef over says now out ds a d :
  made_of_adds adds total bef over says now out ds -> adds a d -> over a ->
  (forall b d', adds b d' -> b <> a -> (forall a' e, adds a' e -> ~ bef a' b) -> bef b a) ->
  a ∈ out /\ now = Some (total ds).
Proof.
  intros (_ & _ & H3 & _ & _ & _ & H7) Ha Ho Hlate. split.
  - destruct (decide (a ∈ out)) as [|Hn]; [done|].
    destruct (H7 a d Ha Ho Hn) as (b & (B1 & [d' B2] & B3 & B4) & _). destruct B3. by eapply Hlate.
  - destruct H3 as [?|(_ & _ & H3)]; [done|]. by destruct (H3 a d Ha).
Qed.
