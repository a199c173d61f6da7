(** The lemmas behind C39 - C41 and C65. *)
From Verif Require Import Bytes BytesFacts Value CommandId Request ReqContext Response Metrics Prog
  Commands EngineSpec WireSpec RequestSpec RequestFacts ParserSpec IdsFacts ReqContextFacts
  ReqParserProps ResponseFacts HistorySpec ProgFacts CommandFacts EngineFacts EngineProps ConcFacts
  Server ServerSpec ServerFacts.
From stdpp Require Import gmap list.
From Coq Require Import NArith ZArith Lia.
From Coq Require Import ZifyBool ZifyNat ZifyN.

(** ** Programs of requests without arguments *)

(** Touches no key and ends with [Q]. *)
Fixpoint good (Q : cres -> Prop) (p : prog) : Prop :=
  match p with
  | PRet r => Q r
  | PCounter _ c => forall n, good Q (c n)
  | PIncr _ _ c => good Q c
  | _ => False
  end.

Lemma good_mono (Q Q' : cres -> Prop) p : (forall r, Q r -> Q' r) -> good Q p -> good Q' p.
Proof. intros H. induction p as [| | | | | | |m c IH|d m c IH]; cbn; auto. Qed.

Lemma good_pbind (Q Q' : cres -> Prop) p f :
  good Q p -> (forall r, Q r -> good Q' (f r)) -> good Q' (pbind p f).
Proof. intros H Hf. induction p as [| | | | | | |m c IH|d m c IH]; cbn in *; auto. Qed.

Lemma good_step Q p s p' s' : good Q p -> pstep p s = Some (p', s') ->
  (Q CPanic \/ room s) -> good Q p'.
Proof.
  destruct p as [| | | | | | |m c|d m c]; cbn; try done.
  - intros H [= <- <-] _. apply H.
  - intros H Hs Hp. destruct (counters_increment d (st_counters s) m) as [cs|] eqn:E.
    + by injection Hs as <- <-.
    + injection Hs as <- <-. destruct Hp as [?|Hr]; [done|]. specialize (Hr m).
      rewrite counters_inc_at in E by (unfold u64_mod; lia). done.
Qed.

Lemma good_keeps Q p s p' s' : good Q p -> pstep p s = Some (p', s') -> st_keys s' = st_keys s.
Proof.
  destruct p as [| | | | | | |m c|d m c]; cbn; try done.
  - by intros _ [= <- <-].
  - intros _. by destruct (counters_increment _ _ _); intros [= <- <-].
Qed.

Lemma pstep_count p s p' s' m : pstep p s = Some (p', s') -> (count s m + 1 < 2 ^ 64)%N ->
  (count s' m <= count s m + 1)%N.
Proof.
  intros Hs Hm. unfold count in *.
  destruct p as [r|k c|k c|k v c|k c|k d u c|k d u c|m' c|d m' c]; cbn in Hs; try done;
    try (injection Hs as <- <-; unfold with_keys; cbn; lia).
  - destruct (st_keys s !! k) as [w|]; [|injection Hs as <- <-; lia].
    destruct (u w) as [w1 r]. injection Hs as <- <-. unfold with_keys. cbn. lia.
  - unfold counters_increment, uadd in Hs.
    destruct (_ <? _)%N eqn:E; [injection Hs as <- <-; cbn|].
    + destruct (decide (m = m')) as [->|Hne]; [rewrite lookup_insert; cbn; lia|].
      rewrite lookup_insert_ne by done. lia.
    + destruct d; injection Hs as <- <-; [lia|]. cbn.
      destruct (decide (m = m')) as [->|Hne]; [|rewrite lookup_insert_ne by done; lia].
      unfold u64_mod in E. lia.
Qed.

(** What [cres] says on the wire. *)
Definition says (e : env) (c : command_id) (r : cres) : Prop :=
  match r with
  | COk b => exists rsp, answers_bare c rsp /\ b = resp_frame e rsp
  | CErr err b => b = [] /\ answers_bare c (RDispatchError err)
  | CPanic => False
  end.

Lemma statistics_small m : statistics m -> small_stats m /\ (size m <= 3)%nat.
Proof.
  intros H. split.
  - intros k v [Hk (n & _ & ->)]%H. split.
    + rewrite !elem_of_list_In in Hk. cbn [map In] in Hk.
      destruct Hk as [<-|[<-|[<-|[]]]]; by vm_compute.
    + unfold i64_enc. by rewrite be_enc_lenN.
  - pose proof (size_dom (D := gset bytes) m) as Hsz. rewrite <-Hsz.
    set (X := list_to_set (map metric_name [MCommandsErrored; MCommandsSuccessful; MSessionsStarted]) : gset bytes).
    transitivity (size X); [|by vm_compute].
    apply subseteq_size. intros k [v Hv]%elem_of_dom. apply elem_of_list_to_set. by eapply H.
Qed.

Lemma statistics_fit m : statistics m -> within_limits (RValue (VMap m)).
Proof. intros [? ?]%statistics_small. by apply small_stats_fit. Qed.

Lemma good_stats_loop (Q : cres -> Prop) (l : list metric) (m : gmap bytes bytes) cont :
  statistics m -> (forall x, x ∈ l -> x ∈ [MCommandsErrored; MCommandsSuccessful; MSessionsStarted]) ->
  (forall m', statistics m' -> good Q (cont m')) -> good Q (stats_loop l m cont).
Proof.
  revert m. induction l as [|x l IH]; intros m Hm Hl Hc; cbn; [by apply Hc|].
  assert (Hl' : forall y, y ∈ l -> y ∈ [MCommandsErrored; MCommandsSuccessful; MSessionsStarted]).
  { intros y Hy. apply Hl. by apply elem_of_list_further. }
  intros [n|]; [|by apply IH].
  destruct (Z.of_N n <? i64_half)%Z eqn:E; [|by apply IH]. apply IH; [|done|done].
  intros k v. destruct (decide (k = metric_name x)) as [->|Hne].
  - rewrite lookup_insert. intros [= <-]. split.
    + apply elem_of_list_In, in_map, elem_of_list_In, Hl. by apply elem_of_list_here.
    + exists n. split; [|done]. unfold i64_half in E. lia.
  - rewrite lookup_insert_ne by done. apply Hm.
Qed.

Lemma bare_good e req : env_ok e -> answer_ok (FRequest req) ->
  good (says e (r_command req)) (dispatch_prog e req []).
Proof.
  intros He [Hk Hp]. unfold dispatch_prog.
  apply (good_pbind (says e (r_command req))).
  2: { intros [b|err b|]; cbn; auto. }
  destruct req as [buf c kt pos]. cbn in Hk, Hp. subst kt pos. cbn [r_command].
  destruct c; cbn -[stats_loop write_list write_map]; try (split; done).
  - (* Echo *)
    match goal with |- good _ ?p =>
      change p with (PRet (cres_of (copy_to e (RValue (VList [])) []))) end.
    rewrite copy_to_ok; [|done|]. 2: { split; by vm_compute. }
    cbn. eexists. split; [done|]. done.
  - match goal with |- good _ ?p => change p with
      (stats_loop stats_counters ∅ (fun m => PRet (cres_of (write_map e [] m)))) end.
    apply good_stats_loop; [intros k v; by rewrite lookup_empty|done|].
    intros m Hm. cbn -[write_map].
    change (write_map e [] m) with (copy_to e (RValue (VMap m)) []).
    rewrite copy_to_ok by (try done; by apply statistics_fit). exists (RValue (VMap m)). split; [|done]. by exists m.
Qed.

(** ** The whole server *)

Lemma run_snoc e evs ev x : server_run e (evs ++ [ev]) x =
  match server_run e evs x with Some y => server_event e y ev | None => None end.
Proof.
  revert x. induction evs as [|v evs IH]; intros x; cbn.
  - by destruct (server_event e x ev).
  - by destruct (server_event e x v).
Qed.

Definition failed (i : nat) (evs : list event) : bool :=
  existsb (fun ev => match ev with EFail j => bool_decide (j = i) | _ => false end) evs.

Lemma failed_in i evs : failed i evs = false <-> EFail i ∉ evs.
Proof.
  unfold failed. split.
  - intros H Hin. apply not_true_iff_false in H. apply H, existsb_exists. exists (EFail i).
    split; [by apply elem_of_list_In|]. by apply bool_decide_eq_true.
  - intros H. apply not_true_iff_false. intros (ev & Hin & Hev)%existsb_exists.
    destruct ev; try done. apply bool_decide_eq_true in Hev as ->. by apply H, elem_of_list_In.
Qed.

Definition conn_of (ev : event) : option nat :=
  match ev with EConnect => None | EDeliver i _ | EEnd i | EFail i | EStep i => Some i end.

Lemma event_log i evs ev :
  received i (evs ++ [ev]) = received i evs ++
    (match ev with EDeliver j bs => if decide (j = i) then bs else [] | _ => [] end) /\
  ended i (evs ++ [ev]) = ended i evs || (match ev with EEnd j => bool_decide (j = i) | _ => false end) /\
  failed i (evs ++ [ev]) = failed i evs || (match ev with EFail j => bool_decide (j = i) | _ => false end).
Proof.
  unfold received, ended, failed. rewrite map_app, concat_app, !existsb_app. cbn.
  by rewrite app_nil_r, !orb_false_r.
Qed.

Lemma event_log_other i evs ev : conn_of ev <> Some i ->
  received i (evs ++ [ev]) = received i evs /\ ended i (evs ++ [ev]) = ended i evs /\
  failed i (evs ++ [ev]) = failed i evs.
Proof.
  intros H. destruct (event_log i evs ev) as (-> & -> & ->).
  destruct ev as [|j bs|j|j|j]; cbn in H;
    try (assert (j <> i) by congruence); rewrite ?decide_False, ?bool_decide_eq_false_2 by done;
    by rewrite ?app_nil_r, ?orb_false_r.
Qed.

Lemma event_log_step i evs : 
  received i (evs ++ [EStep i]) = received i evs /\ ended i (evs ++ [EStep i]) = ended i evs /\
  failed i (evs ++ [EStep i]) = failed i evs.
Proof.
  destruct (event_log i evs (EStep i)) as (-> & -> & ->). by rewrite app_nil_r, !orb_false_r.
Qed.

(** An event changes at most its own connection. *)
Lemma event_conns e cs s ev cs' s' i : server_event e (cs, s) ev = Some (cs', s') ->
  conn_of ev <> Some i -> cs' !! i = cs !! i \/ (cs !! i = None /\ cs' !! i = Some conn_new).
Proof.
  intros H Hi. destruct ev as [|j bs|j|j|j]; cbn in H, Hi.
  - injection H as <- <-. destruct (decide (i < length cs)%nat) as [Hl|Hl].
    + left. by apply lookup_app_l.
    + rewrite lookup_app_r by lia. rewrite (lookup_ge_None_2 cs) by lia.
      destruct (i - length cs)%nat; cbn; auto.
  - destruct (cs !! j) as [c|]; [|done]. destruct (k_eof c); [done|].
    injection H as <- <-. left. apply list_lookup_insert_ne. congruence.
  - destruct (cs !! j) as [c|]; [|done].
    injection H as <- <-. left. apply list_lookup_insert_ne. congruence.
  - destruct (cs !! j) as [c|]; [|done].
    destruct (k_task c) as [|[[]| | | | | | | |]| |]; try done;
      injection H as <- <-; left; apply list_lookup_insert_ne; congruence.
  - destruct (cs !! j) as [c|]; [|done]. destruct (conn_step e c s) as [[c' s1]|]; [|done].
    injection H as <- <-. left. apply list_lookup_insert_ne. congruence.
Qed.

Lemma conn_step_count e c s c' s' m : conn_step e c s = Some (c', s') ->
  (count s m + 1 < 2 ^ 64)%N -> (count s' m <= count s m + 1)%N.
Proof.
  unfold conn_step. destruct (k_task c) as [|p| |]; [|..|done|done]; intros H Hm.
  - destruct (cut_line _) as [[]|]; [injection H as <- <-; lia|].
    destruct (k_unread c); [|injection H as <- <-; lia].
    destruct (k_eof c); [|done]. destruct (_ =? _)%N; injection H as <- <-; lia.
  - assert (Hp : forall o, pstep p s = o -> match o with
        | Some (p', s'') => (count s'' m <= count s m + 1)%N | None => True end).
    { intros [[p' s'']|] Ho; [|done]. by apply (pstep_count _ _ _ _ m Ho). }
    destruct p; [injection H as <- <-; lia|..];
      (destruct (pstep _ s) as [[p' s1]|] eqn:E; [|done]); injection H as <- <-; exact (Hp _ eq_refl).
Qed.

Lemma event_count e cs s ev cs' s' m : server_event e (cs, s) ev = Some (cs', s') ->
  (count s m + 1 < 2 ^ 64)%N -> (count s' m <= count s m + 1)%N.
Proof.
  intros H Hm. destruct ev as [|j bs|j|j|j]; cbn in H.
  - injection H as <- <-. lia.
  - destruct (cs !! j) as [c|]; [|done]. destruct (k_eof c); [done|]. injection H as <- <-. lia.
  - destruct (cs !! j) as [c|]; [|done]. injection H as <- <-. lia.
  - destruct (cs !! j) as [c|]; [|done].
    destruct (k_task c) as [|[[]| | | | | | | |]| |]; try done; injection H as <- <-; lia.
  - destruct (cs !! j) as [c|]; [|done]. destruct (conn_step e c s) as [[c' s1]|] eqn:E; [|done].
    injection H as <- <-. by eapply conn_step_count.
Qed.

Section serves.
  Context (e : env) (He : env_ok e).

  Definition Adone (ms : list bytes) (sent : bytes) (_ : store) : Prop :=
    exists rs, Forall2 answers ms rs /\ sent = all_frames e rs.
  Definition Brun (ms : list bytes) (m : bytes) (p : prog) (sent : bytes) (s : store) : Prop :=
    Adone ms sent s /\ exists req, (req_feed req_ctx_new m).2 = FRequest req /\
      good (says e (r_command req)) p.

  Lemma Adone_snoc ms m r sent s b : Adone ms sent s -> answers m r -> b = resp_frame e r ->
    Adone (ms ++ [m]) (sent ++ b) s.
  Proof.
    intros (rs & Hrs & ->) Hm ->. exists (rs ++ [r]). split; [by apply Forall2_app; [|constructor]|].
    unfold all_frames. rewrite map_app, concat_app. cbn. by rewrite app_nil_r.
  Qed.

  Lemma A_err ms m err sent s : Adone ms sent s ->
    (req_feed req_ctx_new m).2 = FError err ->
    Adone (ms ++ [m]) (sent ++ write_parse_error [] err) s.
  Proof.
    intros HA Hm. apply (Adone_snoc _ _ (RParseError err)); [done| |done].
    unfold answers. by rewrite Hm.
  Qed.

  Lemma B_start ms m req sent s : Adone ms sent s ->
    (req_feed req_ctx_new m).2 = FRequest req -> Brun ms m (dispatch_prog e req []) sent s.
  Proof.
    intros HA Hm. split; [done|]. exists req. split; [done|]. apply bare_good; [done|].
    destruct (feed_inv req_ctx_new m) as [_ H]; [done|]. by rewrite Hm in H.
  Qed.

  Lemma B_step ms m p sent s p' s' : room s -> Brun ms m p sent s ->
    pstep p s = Some (p', s') -> Brun ms m p' sent s'.
  Proof.
    intros Hr [HA (req & Hm & Hg)] Hs. split; [done|]. exists req. split; [done|].
    eapply good_step; [done..|]. by right.
  Qed.

  Lemma B_ok ms m b sent s : Brun ms m (PRet (COk b)) sent s -> Adone (ms ++ [m]) (sent ++ b) s.
  Proof.
    intros [HA (req & Hm & rsp & Hr & ->)]. apply (Adone_snoc _ _ rsp); [done| |done].
    unfold answers. by rewrite Hm.
  Qed.

  Lemma B_err ms m err b sent s : Brun ms m (PRet (CErr err b)) sent s ->
    Adone (ms ++ [m]) (sent ++ write_dispatch_error b err) s.
  Proof.
    intros [HA (req & Hm & -> & Hr)]. apply (Adone_snoc _ _ (RDispatchError err)); [done| |done].
    unfold answers. by rewrite Hm.
  Qed.

  Definition sconn := conn_inv Adone Brun.

  Lemma sconn_store f D c s s' : sconn f D c s -> sconn f D c s'.
  Proof. done. Qed.

  Definition server_inv (s0 : store) (evs : list event) (cs : list conn) (s : store) : Prop :=
    (forall m, (count s m <= count s0 m + lenN evs)%N) /\
    forall i,
    match cs !! i with
    | Some c => sconn (failed i evs) (received i evs) c s /\ k_eof c = ended i evs
    | None => received i evs = [] /\ ended i evs = false /\ failed i evs = false
    end.

  Lemma conn_step_eof c s c' s' : conn_step e c s = Some (c', s') -> k_eof c' = k_eof c.
  Proof.
    unfold conn_step. destruct (k_task c) as [|p| |]; [|..|done|done]; intros H.
    - assert (Hh : forall u eo inp x se, k_eof (handle e u eo inp x se) = eo).
      { intros. unfold handle. by destruct (req_feed x inp) as [? []]. }
      destruct (cut_line _) as [[]|]; [injection H as <- <-; apply Hh|].
      destruct (k_unread c); [|by injection H as <- <-].
      destruct (k_eof c) eqn:Ee; [|done].
      destruct (_ =? _)%N; injection H as <- <-; [done|apply Hh].
    - destruct p as [r| | | | | | | |]; [injection H as <- <-; by destruct r|..];
        (destruct (pstep _ s) as [[p' s1]|] eqn:E; [|done]); by injection H as <- <-.
  Qed.

  Lemma serves_inv s0 evs cs s : room_during evs s0 -> serves e s0 evs cs s ->
    server_inv s0 evs cs s.
  Proof.
    revert cs s. induction evs as [|ev evs IH] using rev_ind; intros cs s Hroom Hrun.
    - unfold serves in Hrun. cbn in Hrun. injection Hrun as <- <-. split; [intros m; rewrite lenN_nil; lia|].
      intros i. rewrite lookup_nil. done.
    - unfold serves in Hrun. rewrite run_snoc in Hrun.
      destruct (server_run e evs ([], s0)) as [[cs1 s1]|] eqn:Hr1; [|done].
      destruct (IH cs1 s1) as [Hcnt Hcs]; [|done|].
      { intros m. specialize (Hroom m). rewrite lenN_app, lenN_one in Hroom. lia. }
      assert (Hroom1 : room s1).
      { intros m. specialize (Hroom m). specialize (Hcnt m). unfold count in *.
        rewrite lenN_app, lenN_one in Hroom. lia. }
      split.
      { intros m. specialize (Hcnt m). specialize (Hroom1 m).
        pose proof (event_count _ _ _ _ _ _ m Hrun) as H. rewrite lenN_app, lenN_one. lia. }
      intros i. specialize (Hcs i).
      destruct (decide (conn_of ev = Some i)) as [Hi|Hi].
      + destruct (event_log i evs ev) as (-> & -> & ->).
        destruct ev as [|j bs|j|j|j]; cbn in Hi; try done; injection Hi as ->; cbn in Hrun;
          (destruct (cs1 !! i) as [c|] eqn:Hc; [|done]);
          pose proof (lookup_lt_Some _ _ _ Hc) as Hlt; destruct Hcs as [Hcs Heof];
          rewrite ?decide_True, ?bool_decide_eq_true_2 by done;
          rewrite ?app_nil_r, ?orb_false_r, ?orb_true_r.
        * destruct (k_eof c) eqn:Ee; [done|]. injection Hrun as <- <-.
          rewrite list_lookup_insert by done. split; [|done].
          by apply conn_deliver_inv.
        * injection Hrun as <- <-. rewrite list_lookup_insert by done. split; [|done].
          by apply conn_end_inv.
        * assert (Hf : sconn true (received i evs)
            (Conn (k_unread c) (k_eof c) (k_size c) (k_input c) (k_ctx c) (k_sent c) TClosed) s1 \/
            match k_task c with TReading | TServing _ => False | _ => True end).
          { destruct (k_task c) eqn:Et; try by right.
            - left. eapply conn_fail_inv; [done|by rewrite Et|]. by intros ? ? ? _ [? _].
            - left. eapply conn_fail_inv; [done|by rewrite Et|]. by intros ? ? ? _ [? _]. }
          destruct (k_task c) as [|[[]| | | | | | | |]| |]; try done;
            injection Hrun as <- <-; rewrite list_lookup_insert by done;
            (destruct Hf as [?|[]]; done).
        * destruct (conn_step e c s1) as [[c' s2]|] eqn:Hst; [|done]. injection Hrun as <- <-.
          rewrite list_lookup_insert by done. split.
          -- eapply (conn_step_inv e Adone Brun room A_err B_start B_step B_ok B_err); done.
          -- by rewrite (conn_step_eof _ _ _ _ Hst).
      + destruct (event_log_other i evs ev Hi) as (-> & -> & ->).
        destruct (event_conns _ _ _ _ _ _ i Hrun Hi) as [->|[Hn Hn']].
        * destruct (cs1 !! i) as [c|]; [|done]. destruct Hcs as [H1 H2]. by split.
        * rewrite Hn in Hcs. rewrite Hn'. destruct Hcs as (-> & -> & ->). split; [|done].
          apply conn_new_inv. exists []. split; [constructor|done].
  Qed.

  (** Every connection is answered message by message. *)
  Lemma serves_framing s0 evs cs s i c :
    room_during evs s0 -> serves e s0 evs cs s -> cs !! i = Some c ->
    exists done rest rs,
      cut (ended i evs) (received i evs) = done ++ rest /\
      Forall2 answers done rs /\ k_sent c = all_frames e rs /\
      (at_rest e c s -> EFail i ∉ evs ->
       (rest = [] /\ k_task c <> TCrashed) \/
       (k_task c = TCrashed /\ exists m rest', rest = m :: rest' /\
                               (req_feed req_ctx_new m).2 = FPanic)).
  Proof.
    intros Hroom Hrun Hc. destruct (serves_inv _ _ _ _ Hroom Hrun) as [_ Hinv].
    specialize (Hinv i). rewrite Hc in Hinv. destruct Hinv as [Hinv <-].
    destruct (conn_inv_cut e _ _ _ _ _ _ Hinv) as (ds & rest & Hcut & H).
    destruct (k_task c) as [|p| |] eqn:Et.
    - destruct H as [(rs & Hrs & Hs) Hrest]. exists ds, rest, rs. split_and!; try done.
      intros Har _. left. split; [by apply Hrest|done].
    - destruct H as (m & rest' & -> & (rs & Hrs & Hs) & _).
      exists ds, (m :: rest'), rs. split_and!; try done.
      unfold at_rest, conn_step. rewrite Et. by destruct p as [| | | | |k ? ? ?| | |]; 
        cbn; try done; [destruct (st_keys s !! k) as [v|]; [destruct (upd v)|]|destruct (counters_increment _ _ _)].
    - destruct H as [(rs & Hrs & Hs) Hrest]. exists ds, rest, rs. split_and!; try done.
      intros _ Hf. left. split; [|done]. apply Hrest. by apply failed_in.
    - destruct H as (m & rest' & -> & [[(rs & Hrs & Hs) Hp]|[_ (req & _ & Hg)]]); [|done].
      exists ds, (m :: rest'), rs. split_and!; try done. intros _ _. right. eauto.
  Qed.
End serves.

(** ** C40 *)

Definition harmless (c : conn) : Prop :=
  req_inv (k_ctx c) /\ match k_task c with TServing p => good (fun _ => True) p | _ => True end.

Lemma bare_harmless e req : answer_ok (FRequest req) -> good (fun _ => True) (dispatch_prog e req []).
Proof.
  intros [Hk Hp]. unfold dispatch_prog. apply (good_pbind (fun _ => True)).
  2: { intros [b|err b|] _; done. }
  destruct req as [buf c kt pos]. cbn in Hk, Hp. subst kt pos.
  destruct c; try done.
  match goal with |- good _ ?p => change p with
    (stats_loop stats_counters ∅ (fun m => PRet (cres_of (write_map e [] m)))) end.
  apply good_stats_loop; [intros k v; by rewrite lookup_empty|done|done].
Qed.

Lemma handle_harmless e u eof input x sent : req_inv x -> harmless (handle e u eof input x sent).
Proof.
  intros Hx. unfold handle, harmless. destruct (feed_inv x input Hx) as [H1 H2].
  destruct (req_feed x input) as [x' [|req|err| |]]; cbn in *; try done.
  split; [done|]. by apply bare_harmless.
Qed.

Lemma step_harmless e c s c' s' : harmless c -> conn_step e c s = Some (c', s') ->
  harmless c' /\ st_keys s' = st_keys s.
Proof.
  intros [Hx Ht]. unfold conn_step. destruct (k_task c) as [|p| |]; [|..|done|done]; intros H.
  - destruct (cut_line _) as [[]|]; [injection H as <- <-; split; [by apply handle_harmless|done]|].
    destruct (k_unread c); [|by injection H as <- <-].
    destruct (k_eof c); [|done]. destruct (_ =? _)%N; injection H as <- <-; [done|].
    split; [by apply handle_harmless|done].
  - assert (Hp : forall p' s1, pstep p s = Some (p', s1) -> good (fun _ => True) p' /\ st_keys s1 = st_keys s).
    { intros p' s1 Hs. split; [|by eapply good_keeps]. eapply good_step; [done..|]. by left. }
    destruct p as [r| | | | | | | |]; try done.
    + injection H as <- <-. by destruct r.
    + cbn in H. injection H as <- <-. by edestruct Hp as [? ?].
    + destruct (pstep _ s) as [[p' s1]|] eqn:E; [|done]. injection H as <- <-.
      by destruct (Hp _ _ eq_refl).
Qed.

Lemma serves_keys e s0 evs cs s : serves e s0 evs cs s ->
  st_keys s = st_keys s0 /\ Forall harmless cs.
Proof.
  unfold serves. revert cs s. induction evs as [|ev evs IH] using rev_ind; intros cs s Hrun.
  - cbn in Hrun. by injection Hrun as <- <-.
  - rewrite run_snoc in Hrun. destruct (server_run e evs ([], s0)) as [[cs1 s1]|]; [|done].
    destruct (IH _ _ eq_refl) as [<- Hcs]. clear IH.
    assert (Hat : forall i c, cs1 !! i = Some c -> harmless c).
    { intros i c Hc. by eapply Forall_lookup_1. }
    destruct ev as [|j bs|j|j|j]; cbn in Hrun.
    + injection Hrun as <- <-. split; [done|]. apply Forall_app. split; [done|].
      by apply Forall_singleton.
    + destruct (cs1 !! j) as [c|] eqn:Hc; [|done]. destruct (k_eof c); [done|].
      injection Hrun as <- <-. split; [done|]. apply Forall_insert; [done|]. exact (Hat j c Hc).
    + destruct (cs1 !! j) as [c|] eqn:Hc; [|done].
      injection Hrun as <- <-. split; [done|]. apply Forall_insert; [done|]. exact (Hat j c Hc).
    + destruct (cs1 !! j) as [c|] eqn:Hc; [|done]. destruct (Hat _ _ Hc) as [Hx _].
      destruct (k_task c) as [|[[]| | | | | | | |]| |]; try done;
        injection Hrun as <- <-; (split; [done|]); apply Forall_insert; done.
    + destruct (cs1 !! j) as [c|] eqn:Hc; [|done].
      destruct (conn_step e c s1) as [[c' s2]|] eqn:E; [|done]. injection Hrun as <- <-.
      destruct (step_harmless _ _ _ _ _ (Hat _ _ Hc) E) as [Hh Hk]. split; [done|].
      by apply Forall_insert.
Qed.

Lemma c40_data e s0 evs cs s : serves e s0 evs cs s -> st_keys s = st_keys s0.
Proof. intros H. by apply serves_keys in H as [? _]. Qed.

Lemma answers_inert m r : answers m r ->
  (exists err, r = RParseError err) \/ (exists c, answers_bare c r).
Proof.
  unfold answers. destruct (req_feed req_ctx_new m).2; [done|eauto|eauto|done|done].
Qed.

Lemma c40_answers e s0 evs cs s i c :
  env_ok e -> room_during evs s0 -> serves e s0 evs cs s -> cs !! i = Some c ->
  exists rs, k_sent c = all_frames e rs /\
    forall r, r ∈ rs -> (exists err, r = RParseError err) \/ (exists c, answers_bare c r).
Proof.
  intros He Hroom Hrun Hc.
  destruct (serves_framing e He _ _ _ _ _ _ Hroom Hrun Hc) as (ds & rest & rs & _ & Hrs & Hs & _).
  exists rs. split; [done|]. intros r Hr. apply elem_of_list_lookup in Hr as [n Hn].
  destruct (Forall2_lookup_r _ _ _ _ _ Hrs Hn) as (m & _ & Hm). by eapply answers_inert.
Qed.

(** ** Progress *)

Lemma run_app e evs1 evs2 x : server_run e (evs1 ++ evs2) x =
  match server_run e evs1 x with Some y => server_run e evs2 y | None => None end.
Proof.
  revert x. induction evs1 as [|v evs IH]; intros x; cbn; [done|]. by destruct (server_event e x v).
Qed.

(** [i] can be brought to rest by [n] of its steps. *)
Definition rests (e : env) (i : nat) (cs : list conn) (s : store) : Prop :=
  exists n cs' s' c', server_run e (replicate n (EStep i)) (cs, s) = Some (cs', s') /\
    cs' !! i = Some c' /\ at_rest e c' s'.

Lemma rests_step e i cs s c c' s' : cs !! i = Some c -> conn_step e c s = Some (c', s') ->
  rests e i (<[i := c']> cs) s' -> rests e i cs s.
Proof.
  intros Hc Hs (n & cs2 & s2 & c2 & Hr & H). exists (S n), cs2, s2, c2. split; [|done].
  cbn. by rewrite Hc, Hs.
Qed.

Lemma rests_now e i cs s c : cs !! i = Some c -> conn_step e c s = None -> rests e i cs s.
Proof. intros Hc H. by exists 0%nat, cs, s, c. Qed.

Lemma rests_serving e i cs s c p :
  cs !! i = Some c -> k_task c = TServing p -> good (fun _ => True) p ->
  (forall c' cs' s', k_unread c' = k_unread c -> k_eof c' = k_eof c ->
     harmless c' -> k_task c' = TReading -> k_size c' = 0%N -> cs' !! i = Some c' -> rests e i cs' s') ->
  req_inv (k_ctx c) ->
  rests e i cs s.
Proof.
  revert cs s c.
  induction p as [r|k c0 IH|k c0 IH|k v c0 IH|k c0 IH|k d u c0 IH|k d u c0 IH|m c0 IH|d m c0 IH];
    intros cs s c Hc Ht Hg Hend Hx; cbn in Hg; try done; pose proof (lookup_lt_Some _ _ _ Hc) as Hl.
  - eapply (rests_step _ _ _ _ c); [done|unfold conn_step; by rewrite Ht|].
    destruct r as [b|err b|]; unfold answer.
    + apply (Hend (Conn (k_unread c) (k_eof c) 0 [] (k_ctx c) (k_sent c ++ b) TReading)); try done.
      by apply list_lookup_insert.
    + apply (Hend (Conn (k_unread c) (k_eof c) 0 [] (k_ctx c)
        (k_sent c ++ write_dispatch_error b err) TReading)); try done.
      by apply list_lookup_insert.
    + eapply rests_now; [by apply list_lookup_insert|done].
  - eapply (rests_step _ _ _ _ c); [done|unfold conn_step; by rewrite Ht|].
    eapply (IH _); [by apply list_lookup_insert|done|apply Hg|done|done].
  - destruct (pstep (PIncr d m c0) s) as [[p' s1]|] eqn:E.
    2: { cbn in E. by destruct (counters_increment _ _ _). }
    eapply (rests_step _ _ _ _ c); [done|unfold conn_step; by rewrite Ht, E|].
    cbn in E. destruct (counters_increment _ _ _); injection E as <- <-.
    + eapply IH; [by apply list_lookup_insert|done|done|done|done].
    + eapply rests_step; [by apply list_lookup_insert|done|]. cbn.
      eapply rests_now; [apply list_lookup_insert; by rewrite insert_length|done].
Qed.

Lemma conn_rests e i n : forall cs s c, cs !! i = Some c -> harmless c ->
  (2 * length (k_unread c) + (if (k_size c =? 0)%N then 0 else 1) <= n)%nat -> rests e i cs s.
Proof.
  (* the states in [TReading] *)
  assert (Hread : forall n cs s c, cs !! i = Some c -> harmless c -> k_task c = TReading ->
    (2 * length (k_unread c) + (if (k_size c =? 0)%N then 0 else 1) <= n)%nat -> rests e i cs s).
  { clear n. induction n as [n IHn] using lt_wf_ind. intros cs s c Hc Hh Ht Hn.
    pose proof (lookup_lt_Some _ _ _ Hc) as Hl.
    assert (Hhandle : forall u eof input x sent cs s, req_inv x ->
      (2 * length u < 2 * length (k_unread c) + (if (k_size c =? 0)%N then 0 else 1))%nat ->
      cs !! i = Some (handle e u eof input x sent) -> rests e i cs s).
    { intros u eof input x sent cs1 s1 Hx Hu Hc1.
      pose proof (handle_harmless e u eof input x sent Hx) as Hh1.
      unfold handle in *. destruct (feed_inv x input Hx) as [Hx' _].
      destruct (req_feed x input) as [x' [|req|err| |]]; cbn in *.
      - eapply (IHn (2 * length u)%nat); [lia|done|done|done|cbn; rewrite N.eqb_refl; lia].
      - eapply rests_serving; [done|done|by destruct Hh1| |done].
        intros c' cs' s' Hu' He' Hh' Ht' Hsz' Hc'. cbn in Hu'.
        eapply (IHn (2 * length u)%nat); [lia|done|done|done|rewrite Hu', Hsz', N.eqb_refl; lia].
      - eapply (IHn (2 * length u)%nat); [lia|done|done|done|cbn; rewrite N.eqb_refl; lia].
      - by eapply rests_now.
      - by eapply rests_now. }
    destruct (conn_step e c s) as [[c' s']|] eqn:Hs; [|by eapply rests_now].
    eapply rests_step; [done|done|]. unfold conn_step in Hs. rewrite Ht in Hs.
    destruct Hh as [Hx _].
    destruct (cut_line (k_unread c)) as [[l rest]|] eqn:Ecl.
    - injection Hs as <- <-. apply cut_line_some in Ecl as (Hu & l0 & -> & _).
      eapply Hhandle; [exact Hx| |by apply list_lookup_insert].
      rewrite Hu, !app_length. cbn. lia.
    - destruct (k_unread c) as [|b bs] eqn:Hu.
      + destruct (k_eof c); [|done]. destruct (k_size c =? 0)%N eqn:Hz; injection Hs as <- <-.
        * eapply rests_now; [by apply list_lookup_insert|done].
        * eapply (Hhandle []); [exact Hx|cbn; lia|by apply list_lookup_insert].
      + injection Hs as <- <-. cbn in Hn.
        eapply (IHn 1%nat); [cbn; lia|by apply list_lookup_insert|by split|done|].
        cbn [k_unread k_size]. destruct (k_size c + lenN (b :: bs) =? 0)%N; cbn; lia. }
  intros cs s c Hc Hh Hn. destruct (k_task c) as [|p| |] eqn:Ht.
  - by eapply Hread.
  - destruct Hh as [Hx Hg]. rewrite Ht in Hg. eapply rests_serving; [done..| |done].
    intros c' cs' s' Hu He Hh Ht' Hsz Hc'. by eapply Hread.
  - eapply rests_now; [done|]. unfold conn_step. by rewrite Ht.
  - eapply rests_now; [done|]. unfold conn_step. by rewrite Ht.
Qed.

Lemma c39_rest e s0 evs cs s i c : serves e s0 evs cs s -> cs !! i = Some c ->
  exists n cs' s' c', serves e s0 (evs ++ replicate n (EStep i)) cs' s' /\
    cs' !! i = Some c' /\ at_rest e c' s'.
Proof.
  intros Hrun Hc. destruct (serves_keys _ _ _ _ _ Hrun) as [_ Hh].
  destruct (conn_rests e i _ cs s c Hc (Forall_lookup_1 _ _ _ _ Hh Hc) (le_n _))
    as (n & cs' & s' & c' & Hr & H).
  exists n, cs', s', c'. split; [|done]. unfold serves. rewrite run_app. unfold serves in Hrun.
  by rewrite Hrun.
Qed.

Lemma log_steps i n evs : received i (evs ++ replicate n (EStep i)) = received i evs /\
  ended i (evs ++ replicate n (EStep i)) = ended i evs.
Proof.
  unfold received, ended. rewrite map_app, concat_app, existsb_app.
  induction n as [|n [IH1 IH2]]; cbn; [by rewrite app_nil_r, orb_false_r|]. done.
Qed.

(** ** C41 *)

Lemma answers_like m r1 r2 : answers m r1 -> answers m r2 -> like r1 r2.
Proof.
  unfold answers. destruct (req_feed req_ctx_new m).2 as [|req|err| |]; try done.
  - unfold answers_bare. destruct (r_command req); try (intros -> ->; by left).
    intros (m1 & -> & H1) (m2 & -> & H2). right. eauto 10.
  - intros -> ->. by left.
Qed.

Lemma answers_not_panic m r : answers m r -> (req_feed req_ctx_new m).2 <> FPanic.
Proof. unfold answers. by destruct (req_feed req_ctx_new m).2. Qed.

Lemma answered_same d1 rest1 d2 rest2 rs1 rs2 :
  d1 ++ rest1 = d2 ++ rest2 -> Forall2 answers d1 rs1 -> Forall2 answers d2 rs2 ->
  (rest1 = [] \/ exists m r, rest1 = m :: r /\ (req_feed req_ctx_new m).2 = FPanic) ->
  (rest2 = [] \/ exists m r, rest2 = m :: r /\ (req_feed req_ctx_new m).2 = FPanic) ->
  rest1 = rest2 /\ Forall2 like rs1 rs2.
Proof.
  intros Hd H1. revert d2 rs2 Hd.
  induction H1 as [|m r ms rs Hm H1 IH]; intros d2 rs2 Hd H2 Hr1 Hr2.
  - destruct H2 as [|m2 r2 d2 rs2 Hm2 H2]; cbn in Hd.
    + by subst.
    + exfalso. subst rest1. destruct Hr1 as [?|(m & r & [= <- _] & Hp)]; [done|].
      by apply answers_not_panic in Hm2.
  - destruct H2 as [|m2 r2 d2 rs2 Hm2 H2]; cbn in Hd.
    + exfalso. subst rest2. destruct Hr2 as [?|(m' & r' & [= <- _] & Hp)]; [done|].
      by apply answers_not_panic in Hm.
    + injection Hd as <- Hd. destruct (IH _ _ Hd H2 Hr1 Hr2) as [-> ?]. split; [done|].
      constructor; [by eapply answers_like|done].
Qed.

Lemma c41 e1 s1 evs1 cs1 t1 i1 c1 e2 s2 evs2 cs2 t2 i2 c2 :
  env_ok e1 -> room_during evs1 s1 -> serves e1 s1 evs1 cs1 t1 -> cs1 !! i1 = Some c1 ->
  env_ok e2 -> room_during evs2 s2 -> serves e2 s2 evs2 cs2 t2 -> cs2 !! i2 = Some c2 ->
  received i1 evs1 = received i2 evs2 -> ended i1 evs1 = ended i2 evs2 ->
  EFail i1 ∉ evs1 -> EFail i2 ∉ evs2 -> at_rest e1 c1 t1 -> at_rest e2 c2 t2 ->
  exists rs1 rs2, k_sent c1 = all_frames e1 rs1 /\ k_sent c2 = all_frames e2 rs2 /\
    Forall2 like rs1 rs2 /\ (k_task c1 = TCrashed <-> k_task c2 = TCrashed).
Proof.
  intros He1 Hm1 Hr1 Hc1 He2 Hm2 Hr2 Hc2 Hrec Hend Hf1 Hf2 Ha1 Ha2.
  destruct (serves_framing e1 He1 _ _ _ _ _ _ Hm1 Hr1 Hc1) as (d1 & x1 & rs1 & Hcut1 & H1 & Hs1 & Hx1).
  destruct (serves_framing e2 He2 _ _ _ _ _ _ Hm2 Hr2 Hc2) as (d2 & x2 & rs2 & Hcut2 & H2 & Hs2 & Hx2).
  specialize (Hx1 Ha1 Hf1). specialize (Hx2 Ha2 Hf2).
  rewrite Hrec, Hend, Hcut2 in Hcut1.
  destruct (answered_same d1 x1 d2 x2 rs1 rs2) as [Hx Hl]; try done.
  { destruct Hx1 as [[-> _]|[_ H]]; auto. }
  { destruct Hx2 as [[-> _]|[_ H]]; auto. }
  exists rs1, rs2. split_and!; try done. subst x2.
  destruct Hx1 as [[-> Hn1]|[Ht1 (m & r & -> & _)]].
  - destruct Hx2 as [[_ Hn2]|[Ht2 (m & r & ? & _)]]; [|done]. done.
  - destruct Hx2 as [[? Hn2]|[Ht2 _]]; [done|]. done.
Qed.

(** ** One connection alone *)

Section alone.
  Context (e : env) (s0 : store).

  Definition Aseq (ms : list bytes) (sent : bytes) (s : store) : Prop :=
    one_by_one e s0 ms = (sent, s, true).
  Definition Bseq (ms : list bytes) (m : bytes) (p : prog) (sent : bytes) (s : store) : Prop :=
    exists s1 req, Aseq ms sent s1 /\ (req_feed req_ctx_new m).2 = FRequest req /\
      run p s = dispatch e s1 req [].

  Lemma seq_snoc_gen (f : store -> bytes * store * bool) ms m :
    (forall s, f s = one_by_one e s [m]) -> forall s, one_by_one e s (ms ++ [m]) =
    let '(out, s1, alive) := one_by_one e s ms in
    if alive then let '(out2, s2, alive2) := f s1 in (out ++ out2, s2, alive2)
    else (out, s1, false).
  Proof.
    intros Hf. induction ms as [|m0 ms IH]; intros s.
    - cbn [app]. rewrite <-Hf. cbn [one_by_one]. by destruct (f s) as [[? ?] ?].
    - cbn [app one_by_one]. destruct (req_feed req_ctx_new m0).2 as [|req|err| |]; try done.
      + destruct (dispatch e s req []) as [s1 [b|er b|]]; [| |done].
        all: rewrite IH; destruct (one_by_one e s1 ms) as [[out s2] []]; [|done];
          destruct (f s2) as [[out2 s3] al]; by rewrite app_assoc.
      + rewrite IH. destruct (one_by_one e s ms) as [[out s2] []]; [|done].
        destruct (f s2) as [[out2 s3] al]. by rewrite app_assoc.
  Qed.

  Lemma seq_snoc ms m s : one_by_one e s (ms ++ [m]) =
    let '(out, s1, alive) := one_by_one e s ms in
    if alive then let '(out2, s2, alive2) := one_by_one e s1 [m] in (out ++ out2, s2, alive2)
    else (out, s1, false).
  Proof. by apply (seq_snoc_gen (fun s => one_by_one e s [m])). Qed.

  Lemma Aseq_snoc ms sent s m b s' al : Aseq ms sent s -> one_by_one e s [m] = (b, s', al) ->
    one_by_one e s0 (ms ++ [m]) = (sent ++ b, s', al).
  Proof. intros HA Hm. rewrite seq_snoc. unfold Aseq in HA. by rewrite HA, Hm. Qed.

  Lemma seq_stop ms rest out s : one_by_one e s0 ms = (out, s, false) ->
    one_by_one e s0 (ms ++ rest) = (out, s, false).
  Proof.
    intros H. induction rest as [|m rest IH] using rev_ind; [by rewrite app_nil_r|].
    rewrite app_assoc, seq_snoc, IH. done.
  Qed.

  Lemma As_err ms m err sent s : Aseq ms sent s -> (req_feed req_ctx_new m).2 = FError err ->
    Aseq (ms ++ [m]) (sent ++ write_parse_error [] err) s.
  Proof. intros HA Hm. eapply Aseq_snoc; [done|]. cbn. rewrite Hm. by rewrite app_nil_r. Qed.

  Lemma Bs_start ms m req sent s : Aseq ms sent s ->
    (req_feed req_ctx_new m).2 = FRequest req -> Bseq ms m (dispatch_prog e req []) sent s.
  Proof. intros HA Hm. by exists s, req. Qed.

  Lemma Bs_step ms m p sent s p' s' : True -> Bseq ms m p sent s ->
    pstep p s = Some (p', s') -> Bseq ms m p' sent s'.
  Proof.
    intros _ (s1 & req & HA & Hm & Hrun) Hp. exists s1, req. split; [done|]. split; [done|].
    rewrite <-Hrun. by apply run_pstep.
  Qed.

  Lemma Bs_ok ms m b sent s : Bseq ms m (PRet (COk b)) sent s -> Aseq (ms ++ [m]) (sent ++ b) s.
  Proof.
    intros (s1 & req & HA & Hm & Hrun). eapply Aseq_snoc; [done|]. cbn. rewrite Hm, <-Hrun. cbn.
    by rewrite app_nil_r.
  Qed.

  Lemma Bs_err ms m err b sent s : Bseq ms m (PRet (CErr err b)) sent s ->
    Aseq (ms ++ [m]) (sent ++ write_dispatch_error b err) s.
  Proof.
    intros (s1 & req & HA & Hm & Hrun). eapply Aseq_snoc; [done|]. cbn. rewrite Hm, <-Hrun. cbn.
    by rewrite app_nil_r.
  Qed.

  Lemma alone_inv evs cs s : serves e s0 evs cs s -> (length cs <= 1)%nat -> EFail 0 ∉ evs ->
    match cs !! 0%nat with
    | Some c => conn_inv Aseq Bseq (failed 0 evs) (received 0 evs) c s /\ k_eof c = ended 0 evs
    | None => s = s0 /\ received 0 evs = [] /\ ended 0 evs = false /\ failed 0 evs = false
    end.
  Proof.
    unfold serves. revert cs s. induction evs as [|ev evs IH] using rev_ind; intros cs s Hrun Hlen Hf.
    - cbn in Hrun. by injection Hrun as <- <-.
    - rewrite run_snoc in Hrun.
      destruct (server_run e evs ([], s0)) as [[cs1 s1]|] eqn:Hr1; [|done].
      assert (Hlen1 : (length cs1 <= length cs)%nat).
      { destruct ev as [|j bs|j|j|j]; cbn in Hrun.
        - injection Hrun as <- <-. rewrite app_length. lia.
        - destruct (cs1 !! j) as [c|]; [|done]. destruct (k_eof c); [done|].
          injection Hrun as <- <-. by rewrite insert_length.
        - destruct (cs1 !! j) as [c|]; [|done]. injection Hrun as <- <-. by rewrite insert_length.
        - destruct (cs1 !! j) as [c|]; [|done].
          destruct (k_task c) as [|[[]| | | | | | | |]| |]; try done;
            injection Hrun as <- <-; by rewrite insert_length.
        - destruct (cs1 !! j) as [c|]; [|done]. destruct (conn_step e c s1) as [[c' s2]|]; [|done].
          injection Hrun as <- <-. by rewrite insert_length. }
      specialize (IH _ _ eq_refl ltac:(lia)).
      assert (Hf1 : EFail 0 ∉ evs) by (intros H; apply Hf, elem_of_app; by left). specialize (IH Hf1).
      destruct (decide (conn_of ev = Some 0%nat)) as [Hi|Hi].
      + destruct (event_log 0 evs ev) as (-> & -> & ->).
        destruct ev as [|j bs|j|j|j]; cbn in Hi; try done; injection Hi as ->; cbn in Hrun;
          (destruct (cs1 !! 0%nat) as [c|] eqn:Hc; [|done]);
          pose proof (lookup_lt_Some _ _ _ Hc) as Hlt; destruct IH as [Hcs Heof];
          rewrite ?decide_True, ?bool_decide_eq_true_2 by done;
          rewrite ?app_nil_r, ?orb_false_r, ?orb_true_r.
        * destruct (k_eof c) eqn:Ee; [done|]. injection Hrun as <- <-.
          rewrite list_lookup_insert by done. split; [|done].
          by apply conn_deliver_inv.
        * injection Hrun as <- <-. rewrite list_lookup_insert by done. split; [|done].
          by apply conn_end_inv.
        * exfalso. apply Hf, elem_of_app. right. by apply elem_of_list_here.
        * destruct (conn_step e c s1) as [[c' s2]|] eqn:Hst; [|done]. injection Hrun as <- <-.
          rewrite list_lookup_insert by done. split.
          -- eapply (conn_step_inv e Aseq Bseq (fun _ => True) As_err Bs_start Bs_step Bs_ok Bs_err); done.
          -- by rewrite (conn_step_eof _ _ _ _ _ Hst).
      + destruct (event_log_other 0 evs ev Hi) as (-> & -> & ->).
        destruct ev as [|j bs|j|j|j]; cbn in Hi.
        { cbn in Hrun. injection Hrun as <- <-. rewrite app_length in Hlen. cbn in Hlen.
          destruct cs1; [|cbn in Hlen; lia]. cbn in IH |- *. destruct IH as (-> & -> & -> & ->).
          split; [|done]. by apply conn_new_inv. }
        all: exfalso; cbn in Hrun; destruct (cs1 !! j) as [c|] eqn:Hc; [|done];
          apply lookup_lt_Some in Hc; assert (j <> 0%nat) by congruence; lia.
  Qed.

  Lemma c41_seq evs c s : serves e s0 evs [c] s -> EFail 0 ∉ evs -> at_rest e c s ->
    exists alive, one_by_one e s0 (cut (ended 0 evs) (received 0 evs)) = (k_sent c, s, alive).
  Proof.
    intros Hrun Hf Har. destruct (alone_inv _ _ _ Hrun (le_n 1) Hf) as [Hinv <-].
    rewrite (proj2 (failed_in 0 evs) Hf) in Hinv.
    destruct (conn_inv_cut e _ _ _ _ _ _ Hinv) as (ds & rest & Hcut & H). rewrite Hcut.
    destruct (k_task c) as [|p| |] eqn:Et.
    - destruct H as [HA Hrest]. rewrite (Hrest Har), app_nil_r. by exists true.
    - exfalso. destruct p as [| | | | |k d u c0| | |d m c0]; unfold at_rest, conn_step in Har;
        rewrite Et in Har; cbn in Har; try done.
      + destruct (st_keys s !! k) as [v|]; [by destruct (u v)|done].
      + by destruct (counters_increment _ _ _).
    - destruct H as [HA Hrest]. rewrite (Hrest eq_refl), app_nil_r. by exists true.
    - destruct H as (m & rest' & -> & Hor). exists false.
      replace (ds ++ m :: rest') with ((ds ++ [m]) ++ rest') by (by rewrite <-app_assoc).
      apply seq_stop. rewrite <-(app_nil_r (k_sent c)). destruct Hor as [[HA Hp]|(s1 & req & HA & Hm & Hr)].
      + eapply Aseq_snoc; [done|]. cbn. by rewrite Hp.
      + eapply Aseq_snoc; [done|]. cbn. by rewrite Hm, <-Hr.
  Qed.
End alone.

Lemma c41_sequential e s0 evs c s :
  serves e s0 evs [c] s -> EFail 0 ∉ evs -> at_rest e c s ->
  exists alive, one_by_one e s0 (cut (ended 0 evs) (received 0 evs)) = (k_sent c, s, alive).
Proof. apply c41_seq. Qed.

Lemma c41_alone e s0 evs1 c1 s1 evs2 c2 s2 :
  serves e s0 evs1 [c1] s1 -> serves e s0 evs2 [c2] s2 ->
  received 0 evs1 = received 0 evs2 -> ended 0 evs1 = ended 0 evs2 ->
  EFail 0 ∉ evs1 -> EFail 0 ∉ evs2 -> at_rest e c1 s1 -> at_rest e c2 s2 ->
  k_sent c1 = k_sent c2 /\ s1 = s2.
Proof.
  intros H1 H2 Hr He Hf1 Hf2 Ha1 Ha2.
  destruct (c41_seq _ _ _ _ _ H1 Hf1 Ha1) as [al1 E1].
  destruct (c41_seq _ _ _ _ _ H2 Hf2 Ha2) as [al2 E2].
  rewrite Hr, He, E2 in E1. by injection E1 as -> -> _.
Qed.

(** ** C39 *)

Lemma c39_order e s0 evs cs s i c :
  env_ok e -> room_during evs s0 -> serves e s0 evs cs s -> cs !! i = Some c ->
  exists done rest rs,
    cut (ended i evs) (received i evs) = done ++ rest /\
    Forall2 answers done rs /\ k_sent c = all_frames e rs /\
    (at_rest e c s -> EFail i ∉ evs -> rest = [] \/
       exists m rest', rest = m :: rest' /\ (req_feed req_ctx_new m).2 = FPanic).
Proof.
  intros He Hroom Hrun Hc.
  destruct (serves_framing e He _ _ _ _ _ _ Hroom Hrun Hc) as (ds & rest & rs & ? & ? & ? & H).
  exists ds, rest, rs. split_and!; try done. intros Ha Hf.
  destruct (H Ha Hf) as [[-> _]|[_ ?]]; auto.
Qed.

Lemma c39_no_newline e s0 evs cs s i c :
  env_ok e -> room_during evs s0 -> serves e s0 evs cs s -> cs !! i = Some c ->
  newline ∉ received i evs -> ended i evs = false -> k_sent c = [].
Proof.
  intros He Hroom Hrun Hc Hn Hend.
  destruct (c39_order _ _ _ _ _ _ _ He Hroom Hrun Hc) as (ds & rest & rs & Hcut & Hrs & -> & _).
  unfold cut in Hcut. rewrite Hend, messages_quiet in Hcut by done. cbn in Hcut.
  destruct ds; [|done]. by inversion Hrs.
Qed.

Lemma c39_one_answer e s0 evs cs s i c x :
  env_ok e -> room_during evs s0 -> serves e s0 evs cs s -> cs !! i = Some c ->
  newline ∉ x -> received i evs = n2b (command_id_to_u8 CStats) :: x ++ [newline] ->
  at_rest e c s -> EFail i ∉ evs ->
  exists r, k_sent c = resp_frame e r /\ answers_bare CStats r.
Proof.
  intros He Hroom Hrun Hc Hn Hrec Har Hf.
  destruct (c39_order _ _ _ _ _ _ _ He Hroom Hrun Hc) as (ds & rest & rs & Hcut & Hrs & Hsent & Hrest).
  set (st := n2b (command_id_to_u8 CStats)) in *.
  assert (Hn' : newline ∉ st :: x).
  { apply not_elem_of_cons. split; [|done]. intros H. apply (f_equal b2n) in H. by vm_compute in H. }
  assert (Hm : messages [] (st :: x ++ [newline]) = ([st :: x ++ [newline]], [])).
  { pose proof (messages_line [] (st :: x) Hn') as H. cbn [app] in H.
    change ((st :: x) ++ [newline]) with (st :: x ++ [newline]) in H. rewrite H.
    unfold conclusive, st. by rewrite parse_simple. }
  unfold cut in Hcut. rewrite Hrec, Hm in Hcut. cbn [ends_line last] in Hcut.
  rewrite andb_false_r in Hcut. cbn in Hcut.
  specialize (Hrest Har Hf).
  assert (Hfeed : (req_feed req_ctx_new (st :: x ++ [newline])).2 =
    FRequest (Request (st :: x ++ [newline]) CStats None [])).
  { unfold st. by rewrite parse_simple. }
  destruct Hrest as [->|(m & r' & -> & Hp)].
  - rewrite app_nil_r in Hcut. subst ds. inversion Hrs as [|? r ? rs' Hr Hrs']; subst.
    inversion Hrs'; subst. exists r. rewrite Hsent. unfold all_frames. cbn. rewrite app_nil_r.
    split; [done|]. unfold answers in Hr. by rewrite Hfeed in Hr.
  - exfalso. destruct ds as [|d ds]; cbn in Hcut.
    + injection Hcut as <- _. by rewrite Hfeed in Hp.
    + injection Hcut as _ H. by destruct ds.
Qed.

(** Requests the server can tell apart. *)

Lemma parse_args_early pre l buf tail pos n c :
  l <> [] -> (lenN pos + lenN l = n)%N -> (n <= 255)%N ->
  Forall (fun a => lenN a < u32_mod)%N l ->
  pre ++ concat (map wire_arg l) = buf ++ tail -> (5 <= lenN tail)%N ->
  (req_feed (ReqCtx (lenN pre) pos (QArgs n c None)) buf).2 = FNeedMore.
Proof.
  revert pre pos. induction l as [|a l IH]; intros pre pos Hne Hn H255 Hl Hb Ht; [done|].
  apply Forall_cons in Hl as [Ha Hl]. rewrite lenN_cons in Hn.
  rewrite req_feed_eq. unfold req_step. cbn [q_idx q_stage].
  destruct (lenN buf <? lenN pre)%N eqn:E1; [done|].
  unfold req_stage_args. cbn [q_idx q_positions q_stage].
  assert (Hlen : (lenN buf + lenN tail = lenN pre + 4 + lenN a + lenN (concat (map wire_arg l)))%N).
  { rewrite <-lenN_app, <-Hb. cbn. unfold wire_arg at 1. rewrite !lenN_app, be_enc_lenN. lia. }
  destruct (get_range buf (lenN pre) (lenN pre + 4)) as [lb|] eqn:E2; [|done].
  assert (Hb4 : lb = be_enc 4 (lenN a)).
  { apply get_range_some in E2 as E3. destruct E3 as (_ & E3 & _).
    assert (get_range (buf ++ tail) (lenN pre) (lenN pre + 4) = Some lb) as H1.
    { revert E2. unfold get_range. rewrite lenN_app. intros H.
      replace (lenN pre + 4 <=? lenN buf + lenN tail)%N with true by lia.
      destruct (lenN pre <=? lenN pre + 4)%N; [|done].
      destruct (lenN pre + 4 <=? lenN buf)%N eqn:E4; [|done]. cbn in H |- *.
      injection H as <-. f_equal.
      rewrite drop_app_le by (unfold lenN in *; lia).
      rewrite take_app_le; [done|]. rewrite drop_length. unfold lenN in *. lia. }
    rewrite <-Hb in H1. cbn in H1. unfold wire_arg at 1 in H1. rewrite <-app_assoc in H1.
    rewrite (get_range_app_mid pre (be_enc 4 (lenN a))) in H1;
      [by injection H1|done|by rewrite be_enc_lenN]. }
  subst lb. rewrite be4 by done.
  destruct (get_range buf (lenN pre) (lenN pre + lenN a)) as [g|] eqn:E3; [|done].
  unfold positions_cap. replace (lenN pos <? 256)%N with true by lia.
  rewrite lenN_app, lenN_one.
  apply get_range_some in E2 as (_ & E2 & _). apply get_range_some in E3 as (_ & E3 & _).
  destruct l as [|a' l'].
  - exfalso. cbn in Hlen. rewrite lenN_nil in Hlen. lia.
  - replace (lenN pos + 1 =? n)%N with false by (rewrite lenN_cons in Hn; lia).
    replace (lenN pre + (4 + lenN a))%N with (lenN (pre ++ wire_arg a))
      by (unfold wire_arg; rewrite !lenN_app, be_enc_lenN; lia).
    apply IH; [done| |done|done| |done].
    + rewrite lenN_app, lenN_one. lia.
    + rewrite <-Hb. cbn. by rewrite <-!app_assoc.
Qed.

Lemma parse_untyped_early c l buf tail :
  is_simple c = false -> l <> [] -> (lenN l <= 255)%N -> Forall (fun a => lenN a < u32_mod)%N l ->
  wire_request c None l = buf ++ tail -> (5 <= lenN tail)%N -> buf <> [] ->
  (req_feed req_ctx_new buf).2 = FNeedMore.
Proof.
  intros Hs Hne Hlen Hl Hw Ht Hb. unfold wire_request, wire_head in Hw. cbn [app] in Hw.
  destruct buf as [|b0 buf]; [done|]. injection Hw as <- Hw.
  rewrite init_untyped by done. rewrite req_feed_eq. unfold req_step. cbn [q_idx q_stage].
  replace (_ <? 1)%N with false by (rewrite lenN_cons; lia).
  unfold req_stage_kind. cbn [q_idx q_positions].
  destruct buf as [|b1 buf]; [by rewrite get_at_lookup|]. cbn in Hw. injection Hw as <- Hw.
  rewrite get_at_lookup. change (N.to_nat 1) with 1%nat. cbn [lookup list_lookup].
  rewrite b2n_n2b_small by (unfold u8_mod; lia).
  apply (parse_args_early [n2b (command_id_to_u8 c); n2b (lenN l)] l _ tail [] (lenN l) c);
    try done. cbn. by rewrite Hw.
Qed.

(** A stretch whose newlines are all inconclusive. *)
Lemma messages_pending p bs :
  (forall b1 b2, bs = b1 ++ newline :: b2 -> conclusive (p ++ b1 ++ [newline]) = false) ->
  messages p bs = ([], p ++ bs).
Proof.
  revert p. induction bs as [|b bs IH]; intros p H; cbn; [by rewrite app_nil_r|].
  destruct (b2n b =? 10)%N eqn:E; cbn.
  - apply newline_10 in E as ->. assert (conclusive (p ++ [newline]) = false) as -> by exact (H [] bs eq_refl). rewrite IH; [by rewrite <-app_assoc|].
    intros b1 b2 ->. rewrite <-app_assoc. apply (H (newline :: b1) b2). done.
  - rewrite IH; [by rewrite <-app_assoc|]. intros b1 b2 ->. rewrite <-app_assoc.
    apply (H (b :: b1) b2). done.
Qed.

Lemma typed_wire c t l : exists rest, wire_request c (Some t) l = n2b (128 + command_id_to_u8 c) :: rest.
Proof. unfold wire_request, wire_head. eexists. done. Qed.

Lemma sendable_message w Q : sendable w Q ->
  messages [] (w ++ [newline]) = ([w ++ [newline]], []) /\ forall r, answers (w ++ [newline]) r <-> Q r.
Proof.
  destruct 1 as [|c l Hs Hne Hlen Hl Hlast|c t l Hn].
  - split; [by vm_compute|]. intros r. unfold answers. cbn [app]. by rewrite parse_simple.
  - split.
    + rewrite messages_app, messages_pending.
      * cbn [messages app]. rewrite b2n_newline. cbn [N.eqb Pos.eqb andb].
        unfold conclusive. by rewrite parse_untyped.
      * intros b1 b2 Hw. unfold conclusive.
        rewrite (parse_untyped_early c l _ b2); try done.
        -- rewrite Hw. by rewrite <-!app_assoc.
        -- destruct (decide (5 <= length b2)%nat) as [H|H]; [unfold lenN; lia|]. exfalso.
           apply Hlast. rewrite Hw. rewrite app_length. cbn.
           rewrite drop_app_le by lia. apply elem_of_app. right. by apply elem_of_list_here.
        -- by destruct b1.
    + intros r. unfold answers. by rewrite parse_untyped.
  - destruct (typed_wire c t l) as [rest Hr]. rewrite Hr in *. split.
    + pose proof (messages_line [] _ Hn) as H. cbn [app] in H.
      change ((?x :: rest) ++ [newline]) with (x :: rest ++ [newline]) in *.
      rewrite H. unfold conclusive. by rewrite parse_typed.
    + intros r. unfold answers. cbn [app]. by rewrite parse_typed.
Qed.

Lemma sendable_messages (l : list (bytes * (response -> Prop))) :
  Forall (fun x => sendable x.1 x.2) l ->
  messages [] (concat (map (fun x => x.1 ++ [newline]) l)) = (map (fun x => x.1 ++ [newline]) l, []).
Proof.
  induction 1 as [|x l Hx Hl IH]; [done|]. cbn [map concat].
  rewrite messages_app. destruct (sendable_message _ _ Hx) as [-> _]. by rewrite IH.
Qed.

Lemma answers_bare_some c : exists r, answers_bare c r.
Proof.
  destruct (decide (c = CStats)) as [->|Hc].
  - exists (RValue (VMap ∅)), ∅. split; [done|]. intros k v. by rewrite lookup_empty.
  - exists (match c with
      | CEcho => RValue (VList [])
      | CExists => RDispatchError EArgumentRetrieval
      | CIs => RDispatchError EKeyTypeRequired
      | _ => RDispatchError EKeyUnspecified
      end). by destruct c.
Qed.

Lemma c39_lines e s0 evs cs s i c (l : list (bytes * (response -> Prop))) :
  env_ok e -> room_during evs s0 -> serves e s0 evs cs s -> cs !! i = Some c ->
  Forall (fun x => sendable x.1 x.2) l ->
  received i evs = concat (map (fun x => x.1 ++ [newline]) l) ->
  at_rest e c s -> EFail i ∉ evs ->
  exists rs, k_sent c = all_frames e rs /\ Forall2 (fun x r => x.2 r) l rs.
Proof.
  intros He Hroom Hrun Hc Hl Hrec Har Hf.
  destruct (c39_order _ _ _ _ _ _ _ He Hroom Hrun Hc) as (ds & rest & rs & Hcut & Hrs & Hsent & Hrest).
  exists rs. split; [done|]. specialize (Hrest Har Hf).
  unfold cut in Hcut. rewrite Hrec, sendable_messages in Hcut by done.
  cbn [ends_line last] in Hcut. rewrite andb_false_r in Hcut. cbn in Hcut. rewrite app_nil_r in Hcut.
  assert (Hnp : forall m, m ∈ map (fun x => x.1 ++ [newline]) l -> (req_feed req_ctx_new m).2 <> FPanic).
  { intros m (x & -> & Hx)%elem_of_list_fmap. rewrite Forall_forall in Hl.
    destruct (sendable_message _ _ (Hl x Hx)) as [_ H].
    assert (exists r, x.2 r) as [r Hr].
    { destruct (Hl x Hx) as [|c0 l0|]; [apply answers_bare_some..|by exists (RParseError PEKeyTypeInvalid)]. }
    apply H in Hr. by eapply answers_not_panic. }
  destruct Hrest as [->|(m & r' & -> & Hp)].
  - rewrite app_nil_r in Hcut. subst ds. clear -Hl Hrs. revert rs Hrs.
    induction Hl as [|x l Hx Hl IH]; cbn; intros rs Hrs; inversion Hrs as [|? r ? rs' Hr Hrs']; subst;
      constructor; [|by apply IH].
    by destruct (sendable_message _ _ Hx) as [_ <-].
  - exfalso. apply (Hnp m); [|done]. rewrite Hcut. apply elem_of_app. right. by apply elem_of_list_here.
Qed.

(** ** C65 *)

Lemma c65 e s0 evs cs s i c :
  env_ok e -> room_during evs s0 -> serves e s0 evs cs s -> cs !! i = Some c ->
  k_task c = TCrashed ->
  exists m, m ∈ cut (ended i evs) (received i evs) /\ overfull m.
Proof.
  intros He Hroom Hrun Hc Ht. destruct (serves_inv e He _ _ _ _ Hroom Hrun) as [_ Hinv].
  specialize (Hinv i). rewrite Hc in Hinv. destruct Hinv as [Hinv <-].
  destruct (conn_inv_cut e _ _ _ _ _ _ Hinv) as (ds & rest & Hcut & H). rewrite Ht in H.
  destruct H as (m & rest' & -> & [[_ Hp]|[_ (req & _ & Hg)]]); [|done].
  exists m. split; [rewrite Hcut; apply elem_of_app; right; by apply elem_of_list_here|].
  by apply c09_panics_iff.
Qed.

Lemma c65_exactly e s0 evs cs s i c :
  env_ok e -> room_during evs s0 -> serves e s0 evs cs s -> cs !! i = Some c ->
  at_rest e c s -> EFail i ∉ evs ->
  (k_task c = TCrashed <-> exists m, m ∈ cut (ended i evs) (received i evs) /\ overfull m).
Proof.
  intros He Hroom Hrun Hc Ha Hf. split; [by apply (c65 e s0 evs cs s)|].
  intros (m & Hm & Ho). apply c09_panics_iff in Ho.
  destruct (serves_framing e He _ _ _ _ _ _ Hroom Hrun Hc) as (ds & rest & rs & Hcut & Hrs & _ & H).
  destruct (H Ha Hf) as [[-> _]|[Ht _]]; [|done].
  rewrite app_nil_r in Hcut. rewrite Hcut in Hm. apply elem_of_list_lookup in Hm as [j Hj].
  destruct (Forall2_lookup_l _ _ _ _ _ Hrs Hj) as (r & _ & Hr).
  by apply answers_not_panic in Hr.
Qed.

(** ** For the examples *)

Lemma serves_outcome e s0 evs :
  match server_run e evs ([], s0) with Some _ => true | None => false end = true ->
  serves e s0 evs (outcome_of e s0 evs).1 (outcome_of e s0 evs).2.
Proof.
  unfold serves, outcome_of. by destruct (server_run e evs ([], s0)) as [[cs s]|].
Qed.

Lemma room_outcome evs s : (forall m, count s m = 0%N) -> (lenN evs < 2 ^ 64)%N -> room_during evs s.
Proof. intros H Hl m. specialize (H m). unfold count in H. rewrite H. lia. Qed.
