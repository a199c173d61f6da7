(** Proofs for C104: the server with gradual writes does what the server does. *)
From Verif Require Import Bytes BytesFacts Value CommandId Request ReqContext Response Metrics Prog
  Commands EngineSpec WireSpec RequestSpec RequestFacts ParserSpec IdsFacts ReqContextFacts
  ResponseFacts EngineFacts HistorySpec EngineProps Server ServerSpec ServerFacts ServerProps
  ServerWrites WritesSpec.
From stdpp Require Import gmap list.
From Coq Require Import NArith ZArith Lia.

(** ** Frames delimit themselves *)

Definition whole (f : bytes) : Prop :=
  exists body, f = be_enc 4 (lenN body) ++ body /\ (lenN body < u32_mod)%N.

Lemma frame_whole e r : env_ok e -> within_limits r -> whole (resp_frame e r).
Proof.
  intros He Hr. exists ([n2b (response_type_to_u8 (resp_kind r))] ++ resp_payload e r).
  split; [unfold resp_frame, frame; by rewrite lenN_app, lenN_one|].
  rewrite lenN_app, lenN_one. by apply resp_payload_limit.
Qed.

Lemma whole_ne f : whole f -> f <> [].
Proof.
  intros (body & -> & _) H. apply (f_equal lenN) in H. rewrite lenN_app, be_enc_lenN in H.
  rewrite lenN_nil in H. lia.
Qed.

Lemma whole_split f g a b : whole f -> whole g -> f ++ a = g ++ b -> f = g /\ a = b.
Proof.
  intros (x & -> & Hx) (y & -> & Hy) H. rewrite <-!app_assoc in H.
  apply app_inj_1 in H as [H1 H2]; [|by rewrite !be_enc_len].
  apply (f_equal be_dec) in H1. rewrite !be4 in H1 by done.
  apply app_inj_1 in H2 as [-> ->]; [done|]. unfold lenN in H1. lia.
Qed.

Lemma wholes_inj fs gs : Forall whole fs -> Forall whole gs -> concat fs = concat gs -> fs = gs.
Proof.
  intros Hf. revert gs. induction Hf as [|f fs Hw _ IH]; intros gs Hg H.
  - destruct Hg as [|g gs Hw _]; [done|]. cbn in H. apply whole_ne in Hw. by destruct g.
  - destruct Hg as [|g gs Hw' Hg]; cbn in H.
    + apply whole_ne in Hw. by destruct f.
    + apply whole_split in H as [-> H]; [|done|done]. by rewrite (IH gs).
Qed.

Lemma answers_fit m r : answers m r -> within_limits r.
Proof.
  intros [[err ->]|[c H]]%answers_inert; [done|].
  assert (Hl : within_limits (RValue (VList []))) by (split; vm_compute; reflexivity).
  destruct c; cbn in H; try (by subst r).
  destruct H as (m' & -> & H). by apply statistics_fit.
Qed.

Lemma answers_whole e ms rs : env_ok e -> Forall2 answers ms rs ->
  Forall whole (map (resp_frame e) rs).
Proof.
  intros He H. induction H as [|m r ms rs Hm _ IH]; cbn; constructor; [|done].
  apply frame_whole; [done|]. by eapply answers_fit.
Qed.

(** ** The same run without the writes *)

Definition coarse (ev : link_event) : list event :=
  match ev with
  | NConnect => [EConnect] | NDeliver i bs => [EDeliver i bs] | NEnd i => [EEnd i]
  | NStep i => [EStep i] | NWrite _ _ => [] | NFail i => [EFail i]
  end.
Definition coarsely (evs : list link_event) : list event := concat (map coarse evs).

Lemma coarsely_snoc evs ev : coarsely (evs ++ [ev]) = coarsely evs ++ coarse ev.
Proof. unfold coarsely. by rewrite map_app, concat_app; cbn; rewrite app_nil_r. Qed.

Lemma coarse_received i evs : received i (coarsely evs) = arrived i evs.
Proof.
  unfold received, arrived. induction evs as [|ev evs IH]; [done|].
  unfold coarsely in *. cbn [map concat]. rewrite map_app, concat_app, IH. f_equal.
  destruct ev; cbn; by rewrite ?app_nil_r.
Qed.

Lemma coarse_ended i evs : ended i (coarsely evs) = closed_by_peer i evs.
Proof.
  unfold ended, closed_by_peer. induction evs as [|ev evs IH]; [done|].
  unfold coarsely in *. cbn [map concat existsb]. rewrite existsb_app, IH. f_equal.
  destruct ev; cbn; by rewrite ?orb_false_r.
Qed.

Lemma coarse_fail i evs : EFail i ∈ coarsely evs <-> NFail i ∈ evs.
Proof.
  induction evs as [|ev evs IH]; [split; intros H; by apply elem_of_nil in H|].
  unfold coarsely in *. cbn [map concat].
  rewrite elem_of_app, elem_of_cons, IH. destruct ev; cbn; rewrite ?elem_of_list_singleton, ?elem_of_nil;
    naive_solver.
Qed.

Lemma coarse_len evs : (lenN (coarsely evs) <= lenN evs)%N.
Proof.
  induction evs as [|ev evs IH]; [done|]. unfold coarsely in *. cbn [map concat].
  rewrite lenN_app, lenN_cons. destruct ev; cbn [coarse]; rewrite ?lenN_one, ?lenN_nil; lia.
Qed.

Lemma coarse_room evs s : room_through evs s -> room_during (coarsely evs) s.
Proof. intros H m. specialize (H m). pose proof (coarse_len evs). lia. Qed.

Lemma links_snoc e evs ev x : links_run e (evs ++ [ev]) x =
  match links_run e evs x with Some y => links_event e y ev | None => None end.
Proof.
  revert x. induction evs as [|v evs IH]; intros x; cbn.
  - by destruct (links_event e x ev).
  - by destruct (links_event e x v).
Qed.

Lemma links_app e evs1 evs2 x : links_run e (evs1 ++ evs2) x =
  match links_run e evs1 x with Some y => links_run e evs2 y | None => None end.
Proof.
  revert x. induction evs1 as [|v evs IH]; intros x; cbn; [done|]. by destruct (links_event e x v).
Qed.

(** A step hands over nothing, or an answer and then reads on. *)
Lemma step_hands e c s c' s' : conn_step e c s = Some (c', s') ->
  exists b, k_sent c' = k_sent c ++ b /\ (b = [] \/ k_task c' = TReading).
Proof.
  unfold conn_step. destruct (k_task c) as [|p| |]; [|..|done|done]; intros H.
  - assert (Hh : forall u eo inp x se, exists b, k_sent (handle e u eo inp x se) = se ++ b /\
      (b = [] \/ k_task (handle e u eo inp x se) = TReading)).
    { intros. unfold handle. destruct (req_feed x inp) as [? []]; cbn;
        try (exists []; rewrite app_nil_r; by auto); by eauto. }
    destruct (cut_line _) as [[]|]; [injection H as <- <-; apply Hh|].
    destruct (k_unread c); [|injection H as <- <-; exists []; cbn; rewrite app_nil_r; by auto].
    destruct (k_eof c) eqn:Ee; [|done].
    destruct (_ =? _)%N; injection H as <- <-; [|apply Hh].
    exists []; cbn; rewrite app_nil_r; by auto.
  - destruct p as [r| | | | | | | |].
    { injection H as <- <-. destruct r; cbn; try by eauto. exists []. rewrite app_nil_r. by auto. }
    all: destruct (pstep _ s) as [[p' s1]|] eqn:E; [|done]; injection H as <- <-;
        exists []; cbn; rewrite app_nil_r; by auto.
Qed.

(** A link: what has been taken and what is left are what has been handed over; at most the last
    answer is not on the wire; while something is left the task is about to read on. *)
Definition link_ok (e : env) (broke : bool) (l : link) : Prop :=
  (exists fs last lost, k_sent (l_conn l) = concat fs ++ last /\
    Forall whole fs /\ (last = [] \/ whole last) /\
    k_sent (l_conn l) = l_wire l ++ l_out l ++ lost /\
    (broke = false -> lost = []) /\
    exists more, l_wire l = concat fs ++ more) /\
  (l_out l <> [] -> k_task (l_conn l) = TReading) /\
  (broke = true -> l_out l = [] /\ k_task (l_conn l) = TClosed).

Definition broke (i : nat) (evs : list link_event) : bool :=
  existsb (fun ev => match ev with NFail j => bool_decide (j = i) | _ => false end) evs.

Lemma broke_in i evs : broke i evs = true <-> NFail i ∈ evs.
Proof.
  unfold broke. split.
  - intros (ev & Hin & Hev)%existsb_exists.
    destruct ev; try done. apply bool_decide_eq_true in Hev as ->. by apply elem_of_list_In.
  - intros H. apply existsb_exists. exists (NFail i).
    split; [by apply elem_of_list_In|]. by apply bool_decide_eq_true.
Qed.

Lemma broke_not i evs : broke i evs = false <-> NFail i ∉ evs.
Proof. rewrite <-not_true_iff_false. by rewrite broke_in. Qed.

Definition link_of (ev : link_event) : option nat :=
  match ev with
  | NConnect => None
  | NDeliver i _ | NEnd i | NStep i | NWrite i _ | NFail i => Some i
  end.

Lemma broke_snoc i evs ev : broke i (evs ++ [ev]) = broke i evs || broke i [ev].
Proof. unfold broke. by rewrite existsb_app. Qed.

Lemma broke_other i ev : link_of ev <> Some i -> broke i [ev] = false.
Proof.
  intros H. destruct ev; cbn in *; try done. rewrite bool_decide_eq_false_2; [done|]. congruence.
Qed.

(** An event changes at most its own link. *)
Lemma link_frame e ls s ev ls' s' i : links_event e (ls, s) ev = Some (ls', s') ->
  link_of ev <> Some i ->
  ls' !! i = ls !! i \/ (ls !! i = None /\ ls' !! i = Some (Link conn_new [] [])).
Proof.
  intros H Hi. destruct ev as [|j bs|j|j|j n|j]; cbn in H, Hi.
  { injection H as <- <-. destruct (decide (i < length ls)%nat) as [Hl|Hl].
    + left. by apply lookup_app_l.
    + rewrite lookup_app_r by lia. rewrite (lookup_ge_None_2 ls) by lia.
      destruct (i - length ls)%nat; cbn; auto. }
  all: destruct (ls !! j) as [l|]; [|done].
  - destruct (k_eof _); [done|].
    injection H as <- <-. left. apply list_lookup_insert_ne. congruence.
  - injection H as <- <-. left. apply list_lookup_insert_ne. congruence.
  - destruct (l_out l); [|done]. destruct (conn_step _ _ _) as [[c' s1]|]; [|done].
    injection H as <- <-. left. apply list_lookup_insert_ne. congruence.
  - destruct (_ && _); [|done].
    injection H as <- <-. left. apply list_lookup_insert_ne. congruence.
  - destruct (l_out l); [destruct (k_task _); [|done..]|];
      injection H as <- <-; left; apply list_lookup_insert_ne; congruence.
Qed.

(** One event, seen without the writes. *)
Lemma coarse_event e ls s ev ls' s' :
  links_event e (ls, s) ev = Some (ls', s') ->
  (forall i l, ls !! i = Some l -> l_out l <> [] -> k_task (l_conn l) = TReading) ->
  server_run e (coarse ev) (map l_conn ls, s) = Some (map l_conn ls', s').
Proof.
  intros H Hw. assert (Hl : forall i l, ls !! i = Some l -> map l_conn ls !! i = Some (l_conn l)).
  { intros i l Hi. change (map l_conn ls) with (l_conn <$> ls). by rewrite list_lookup_fmap, Hi. }
  assert (Hins : forall i l, map l_conn (<[i := l]> ls) = <[i := l_conn l]> (map l_conn ls)).
  { intros i l. apply (list_fmap_insert l_conn). }
  destruct ev as [|j bs|j|j|j n|j]; cbn in H |- *.
  { injection H as <- <-. by rewrite map_app. }
  all: destruct (ls !! j) as [l|] eqn:Hj; [|done]; rewrite ?(Hl _ _ Hj).
  - destruct (k_eof _); [done|]. injection H as <- <-. by rewrite Hins.
  - injection H as <- <-. by rewrite Hins.
  - destruct (l_out l); [|done]. destruct (conn_step _ _ _) as [[c' s1]|]; [|done].
    injection H as <- <-. by rewrite Hins.
  - destruct (_ && _); [|done]. injection H as <- <-. rewrite Hins. cbn.
    by rewrite list_insert_id by auto.
  - specialize (Hw _ _ Hj). destruct (l_out l) as [|b bs]; [destruct (k_task _); [|done..]|].
    + injection H as <- <-. by rewrite Hins.
    + rewrite Hw by done. injection H as <- <-. by rewrite Hins.
Qed.

(** What a step hands over is one answer. *)
Lemma step_whole e s0 evs cs s i c c' s' : env_ok e -> room_during evs s0 ->
  serves e s0 evs cs s -> cs !! i = Some c -> conn_step e c s = Some (c', s') ->
  exists b, k_sent c' = k_sent c ++ b /\ (b = [] \/ whole b).
Proof.
  intros He Hroom Hrun Hc. destruct (serves_inv e He _ _ _ _ Hroom Hrun) as [_ Hinv].
  specialize (Hinv i). rewrite Hc in Hinv. destruct Hinv as [Hinv _].
  destruct (conn_inv_cut e _ _ _ _ _ _ Hinv) as (ds & rest & _ & H). clear Hinv.
  unfold conn_step. destruct (k_task c) as [|p| |]; [|..|done|done]; intros Hs.
  - assert (Hh : forall u eo inp x se, exists b, k_sent (handle e u eo inp x se) = se ++ b /\
      (b = [] \/ whole b)).
    { intros. unfold handle. destruct (req_feed x inp) as [? [| |err| |]]; cbn;
        try (exists []; rewrite app_nil_r; by auto).
      eexists. split; [done|]. right. exact (frame_whole e (RParseError err) He I). }
    destruct (cut_line _) as [[]|]; [injection Hs as <- <-; apply Hh|].
    destruct (k_unread c); [|injection Hs as <- <-; exists []; cbn; rewrite app_nil_r; by auto].
    destruct (k_eof c) eqn:Ee; [|done].
    destruct (_ =? _)%N; injection Hs as <- <-; [|apply Hh].
    exists []; cbn; rewrite app_nil_r; by auto.
  - destruct p as [r| | | | | | | |].
    { injection Hs as <- <-. destruct H as (m & rest' & _ & _ & req & Hm & Hg).
      destruct r as [b|err b|]; cbn in Hg |- *.
      - destruct Hg as (rsp & Hr & ->). eexists. split; [done|]. right. apply frame_whole; [done|].
        apply (answers_fit m). unfold answers. by rewrite Hm.
      - destruct Hg as (-> & _). eexists. split; [done|]. right.
        exact (frame_whole e (RDispatchError err) He I).
      - exists []. rewrite app_nil_r. by auto. }
    all: destruct (pstep _ s) as [[p' s1]|] eqn:E; [|done]; injection Hs as <- <-;
        exists []; cbn; rewrite app_nil_r; by auto.
Qed.

Lemma goes_ok e s0 evs ls s : env_ok e -> room_through evs s0 -> goes e s0 evs ls s ->
  serves e s0 (coarsely evs) (map l_conn ls) s /\
  forall i l, ls !! i = Some l -> link_ok e (broke i evs) l.
Proof.
  intros He. revert ls s. induction evs as [|ev evs IH] using rev_ind; intros ls s Hroom Hrun.
  { unfold goes in Hrun. cbn in Hrun. injection Hrun as <- <-. done. }
  unfold goes in Hrun. rewrite links_snoc in Hrun.
  destruct (links_run e evs ([], s0)) as [[ls1 s1]|] eqn:Hr1; [|done].
  assert (Hroom1 : room_through evs s0).
  { intros m. specialize (Hroom m). rewrite lenN_app, lenN_one in Hroom. lia. }
  destruct (IH ls1 s1 Hroom1 Hr1) as [Hco Hok]. clear IH.
  split.
  { unfold serves. rewrite coarsely_snoc, run_app, Hco. eapply coarse_event; [done|].
    intros i l Hi. by destruct (Hok _ _ Hi) as (_ & ? & _). }
  intros i l Hi. rewrite broke_snoc.
  destruct (decide (link_of ev = Some i)) as [Hev|Hev].
  2: { rewrite broke_other by done. rewrite orb_false_r.
       destruct (link_frame _ _ _ _ _ _ i Hrun Hev) as [Heq|[Hn Hn']].
       - rewrite Heq in Hi. by apply Hok.
       - rewrite Hi in Hn'. injection Hn' as ->.
         assert (broke i evs = false) as ->.
         { apply broke_not. intros Hin. 
           assert (received i (coarsely evs) = [] /\ ended i (coarsely evs) = false /\
             failed i (coarsely evs) = false) as (_ & _ & Hf).
           { destruct (serves_inv e He _ _ _ _ (coarse_room _ _ Hroom1) Hco) as [_ Hinv].
             specialize (Hinv i). change (map l_conn ls1) with (l_conn <$> ls1) in Hinv.
             by rewrite list_lookup_fmap, Hn in Hinv. }
           apply failed_in in Hf. by apply Hf, coarse_fail. }
         split; [|done]. exists [], [], []. cbn. split_and!; auto. by exists []. }
  assert (Hex : exists l1, ls1 !! i = Some l1).
  { destruct ev as [|j bs|j|j|j n|j]; cbn in Hev; try done; injection Hev as ->; cbn in Hrun;
      destruct (ls1 !! i); by eauto. }
  destruct Hex as [l1 Hl1]. pose proof (Hok _ _ Hl1) as Hok1. clear Hok.
  pose proof (lookup_lt_Some _ _ _ Hl1) as Hlt.
  destruct ev as [|j bs|j|j|j n|j]; cbn in Hev; try done; injection Hev as ->; cbn in Hrun;
    rewrite Hl1 in Hrun; cbn [broke existsb]; rewrite ?orb_false_r.
  - destruct (k_eof _); [done|]. injection Hrun as <- <-.
    rewrite list_lookup_insert in Hi by done. injection Hi as <-. exact Hok1.
  - injection Hrun as <- <-. rewrite list_lookup_insert in Hi by done. injection Hi as <-. exact Hok1.
  - destruct (l_out l1) eqn:Ho; [|done].
    destruct (conn_step _ _ _) as [[c' s2]|] eqn:Hst; [|done]. injection Hrun as <- <-.
    rewrite list_lookup_insert in Hi by done. injection Hi as <-.
    destruct (step_hands _ _ _ _ _ Hst) as (b & Hb & Hr).
    destruct (step_whole e s0 (coarsely evs) (map l_conn ls1) s1 i (l_conn l1) c' s2) as (b' & Hb' & Hw);
      [done|by apply coarse_room|done| |done|].
    { change (map l_conn ls1) with (l_conn <$> ls1). by rewrite list_lookup_fmap, Hl1. }
    assert (b' = b) as ->. { rewrite Hb in Hb'. by apply app_inv_head in Hb'. }
    destruct Hok1 as ((fs & lst & lost & Hs & Hfs & Hlst & Hk & Hlost & more & Hm) & Hrd & Hbr).
    rewrite Ho in Hk. cbn in Hk.
    destruct (broke i evs) eqn:Hbroke.
    { destruct (Hbr eq_refl) as [_ Hcl]. unfold conn_step in Hst. by rewrite Hcl in Hst. }
    rewrite (Hlost eq_refl), app_nil_r in Hk.
    split; [|split; [|done]]; cbn; rewrite Hb, drop_app.
    + exists (fs ++ (if decide (lst = []) then [] else [lst])), b, [].
      assert (Hfull : concat (fs ++ (if decide (lst = []) then [] else [lst])) = k_sent (l_conn l1)).
      { rewrite concat_app, Hs. destruct (decide _) as [->|]; cbn; by rewrite ?app_nil_r. }
      rewrite Hfull, app_nil_r, <-Hk. split_and!; try done.
      * apply Forall_app. split; [done|]. destruct (decide _); [done|].
        apply Forall_singleton. by destruct Hlst.
      * exists []. by rewrite app_nil_r.
    + intros Hne. by destruct Hr.
  - destruct (_ && _) eqn:Hn; [|done]. injection Hrun as <- <-.
    rewrite list_lookup_insert in Hi by done. injection Hi as <-.
    assert (Hne : l_out l1 <> []).
    { intros E. rewrite E in Hn. destruct n; done. }
    destruct Hok1 as ((fs & lst & lost & Hs & Hfs & Hlst & Hk & Hlost & more & Hm) & Hrd & Hbr).
    split; [|split]; cbn.
    + exists fs, lst, lost. split_and!; try done.
      * rewrite Hk. rewrite <-app_assoc. f_equal. by rewrite (app_assoc (take n _)), take_drop.
      * exists (more ++ take n (l_out l1)). by rewrite Hm, app_assoc.
    + intros _. by apply Hrd.
    + intros Hb. by destruct (Hbr Hb) as [? _].
  - rewrite bool_decide_eq_true_2 by done. cbn. rewrite orb_true_r.
    assert (Hl : l = Link (hung_up (l_conn l1)) [] (l_wire l1)).
    { destruct (l_out l1); [destruct (k_task _); [|done..]|]; injection Hrun as <- <-;
        rewrite list_lookup_insert in Hi by done; by injection Hi as <-. }
    subst l. destruct Hok1 as ((fs & lst & lost & Hs & Hfs & Hlst & Hk & Hlost & more & Hm) & Hrd & Hbr).
    split; [|done]. exists fs, lst, (l_out l1 ++ lost). cbn. split_and!; try done. by exists more.
Qed.

(** ** C104 *)

Lemma c104_prefix e s0 evs ls s i l :
  env_ok e -> room_through evs s0 -> goes e s0 evs ls s -> ls !! i = Some l ->
  exists done rest rs missing,
    cut (closed_by_peer i evs) (arrived i evs) = done ++ rest /\
    Forall2 answers done rs /\
    (* the peer got the answers except for a piece at the end *)
    all_frames e rs = l_wire l ++ missing /\
    (* which belongs to the last answer *)
    (missing <> [] -> exists rs' r more, rs = rs' ++ [r] /\ l_wire l = all_frames e rs' ++ more) /\
    (* and is still to be written, unless the connection broke *)
    (NFail i ∉ evs -> missing = l_out l) /\
    (* when there is nothing left to do, all messages have been answered, up to one that makes
       the parser panic *)
    (NFail i ∉ evs -> idle e l s ->
     rest = [] \/ exists m rest', rest = m :: rest' /\ (req_feed req_ctx_new m).2 = FPanic).
Proof.
  intros He Hroom Hrun Hl. destruct (goes_ok _ _ _ _ _ He Hroom Hrun) as [Hco Hok].
  destruct (serves_framing e He s0 (coarsely evs) (map l_conn ls) s i (l_conn l))
    as (ds & rest & rs & Hcut & Hans & Hsent & Hend); [by apply coarse_room|done| |].
  { change (map l_conn ls) with (l_conn <$> ls). by rewrite list_lookup_fmap, Hl. }
  rewrite coarse_ended, coarse_received in Hcut.
  destruct (Hok _ _ Hl) as ((fs & lst & lost & Hs & Hfs & Hlst & Hk & Hlost & more & Hm) & Hrd & Hbr).
  exists ds, rest, rs, (l_out l ++ lost). split_and!; try done.
  - by rewrite <-Hsent.
  - intros Hne. pose proof (answers_whole e _ _ He Hans) as Hw.
    assert (Hlw : whole lst).
    { destruct Hlst as [->|]; [|done]. exfalso. rewrite Hs, app_nil_r, Hm, <-app_assoc in Hk.
      rewrite <-(app_nil_r (concat fs)) in Hk at 1. apply app_inv_head in Hk.
      symmetry in Hk. apply app_nil in Hk as [_ Hk]. done. }
    assert (Heq : map (resp_frame e) rs = fs ++ [lst]).
    { apply wholes_inj; [done|by apply Forall_app; split; [|apply Forall_singleton]|].
      rewrite concat_app. cbn. rewrite app_nil_r, <-Hs, Hsent. done. }
    destruct rs as [|r rs' _] using rev_ind; [by destruct fs|].
    rewrite map_app in Heq. cbn in Heq. apply app_inj_tail in Heq as [Heq _].
    exists rs', r, more. split; [done|]. unfold all_frames. by rewrite Heq.
  - intros Hf. rewrite Hlost by (by apply broke_not). by rewrite app_nil_r.
  - intros Hf [_ Hidle]. destruct Hend as [[-> _]|[_ ?]]; [done| |by left|by right].
    by rewrite coarse_fail.
Qed.

(** Without any assumption. *)
Lemma goes_serves e s0 evs ls s : goes e s0 evs ls s ->
  serves e s0 (coarsely evs) (map l_conn ls) s /\
  forall i l, ls !! i = Some l -> l_out l <> [] -> k_task (l_conn l) = TReading.
Proof.
  revert ls s. induction evs as [|ev evs IH] using rev_ind; intros ls s Hrun.
  { unfold goes in Hrun. cbn in Hrun. injection Hrun as <- <-. done. }
  unfold goes in Hrun. rewrite links_snoc in Hrun.
  destruct (links_run e evs ([], s0)) as [[ls1 s1]|] eqn:Hr1; [|done].
  destruct (IH ls1 s1 Hr1) as [Hco Hok]. clear IH.
  split.
  { unfold serves. rewrite coarsely_snoc, run_app, Hco. by eapply coarse_event. }
  intros i l Hi.
  destruct (decide (link_of ev = Some i)) as [Hev|Hev].
  2: { destruct (link_frame _ _ _ _ _ _ i Hrun Hev) as [Heq|[Hn Hn']].
       - rewrite Heq in Hi. by eapply Hok.
       - rewrite Hi in Hn'. by injection Hn' as ->. }
  assert (Hex : exists l1, ls1 !! i = Some l1).
  { destruct ev as [|j bs|j|j|j n|j]; cbn in Hev; try done; injection Hev as ->; cbn in Hrun;
      destruct (ls1 !! i); by eauto. }
  destruct Hex as [l1 Hl1]. pose proof (Hok _ _ Hl1) as Hok1. clear Hok.
  pose proof (lookup_lt_Some _ _ _ Hl1) as Hlt.
  destruct ev as [|j bs|j|j|j n|j]; cbn in Hev; try done; injection Hev as ->; cbn in Hrun;
    rewrite Hl1 in Hrun.
  - destruct (k_eof _); [done|]. injection Hrun as <- <-.
    rewrite list_lookup_insert in Hi by done. injection Hi as <-. exact Hok1.
  - injection Hrun as <- <-. rewrite list_lookup_insert in Hi by done. injection Hi as <-. exact Hok1.
  - destruct (l_out l1) eqn:Ho; [|done].
    destruct (conn_step _ _ _) as [[c' s2]|] eqn:Hst; [|done]. injection Hrun as <- <-.
    rewrite list_lookup_insert in Hi by done. injection Hi as <-. cbn.
    destruct (step_hands _ _ _ _ _ Hst) as (b & Hb & Hr). rewrite Hb, drop_app. intros ?. by destruct Hr.
  - destruct (_ && _) eqn:Hn; [|done]. injection Hrun as <- <-.
    rewrite list_lookup_insert in Hi by done. injection Hi as <-. cbn. intros _. apply Hok1.
    intros E. rewrite E in Hn. destruct n; done.
  - destruct (l_out l1); [destruct (k_task _); [|done..]|]; injection Hrun as <- <-;
        rewrite list_lookup_insert in Hi by done; by injection Hi as <-.
Qed.

Lemma c104_data e s0 evs ls s : goes e s0 evs ls s -> st_keys s = st_keys s0.
Proof. intros Hrun. destruct (goes_serves _ _ _ _ _ Hrun) as [Hco _]. by eapply c40_data. Qed.

(** The steps of one task, with all that it writes. *)
Lemma own_steps e i n : forall ls s cs' s', 
  (forall l, ls !! i = Some l -> l_out l = []) ->
  server_run e (replicate n (EStep i)) (map l_conn ls, s) = Some (cs', s') ->
  exists more ls', Forall (own_work i) more /\ links_run e more (ls, s) = Some (ls', s') /\
    map l_conn ls' = cs' /\ (forall l, ls' !! i = Some l -> l_out l = []) /\
    (forall j, j <> i -> ls' !! j = ls !! j).
Proof.
  induction n as [|n IH]; intros ls s cs' s' Ho Hrun; cbn in Hrun.
  { injection Hrun as <- <-. exists [], ls. split_and!; done. }
  destruct (map l_conn ls !! i) as [c|] eqn:Hc; [|done].
  destruct (conn_step e c s) as [[c' s1]|] eqn:Hst; [|done].
  change (map l_conn ls) with (l_conn <$> ls) in Hc. apply list_lookup_fmap_inv in Hc as (l & -> & Hl).
  pose proof (lookup_lt_Some _ _ _ Hl) as Hlt.
  set (out := drop (length (k_sent (l_conn l))) (k_sent c')).
  set (l1 := Link c' out (l_wire l)).
  set (l2 := Link c' [] (l_wire l ++ out)).
  assert (Hstep : links_event e (ls, s) (NStep i) = Some (<[i := l1]> ls, s1)).
  { cbn. by rewrite Hl, (Ho _ Hl), Hst. }
  assert (Hw : exists ws, Forall (own_work i) ws /\
    links_run e ws (<[i := l1]> ls, s1) = Some (<[i := l2]> ls, s1)).
  { destruct out as [|b bs] eqn:Eo.
    - exists []. split; [done|]. unfold l1, l2. cbn. by rewrite app_nil_r.
    - exists [NWrite i (length out)]. split; [constructor; [right; by eauto|done]|].
      cbn. rewrite list_lookup_insert by done. cbn. subst out l1 l2. rewrite Eo.
      cbn [length l_out Nat.leb andb]. rewrite Nat.leb_refl. rewrite list_insert_insert.
      replace (take (S (length bs)) (b :: bs)) with (b :: bs) by (symmetry; apply (firstn_all (b :: bs))).
      replace (drop (S (length bs)) (b :: bs)) with (@nil byte) by (symmetry; apply (skipn_all (b :: bs))).
      done. }
  destruct Hw as (ws & Hws & Hwr).
  destruct (IH (<[i := l2]> ls) s1 cs' s') as (more & ls' & Hm & Hr & Hcs & Ho' & Hj).
  { intros l0 Hl0. rewrite list_lookup_insert in Hl0 by done. by injection Hl0 as <-. }
  { change (map l_conn (<[i:=l2]> ls)) with (l_conn <$> (<[i:=l2]> ls)). by rewrite list_fmap_insert. }
  exists (NStep i :: ws ++ more), ls'. split_and!; try done.
  - constructor; [by left|]. by apply Forall_app.
  - cbn [links_run]. rewrite Hstep, links_app, Hwr. done.
  - intros j Hne. rewrite Hj by done. by apply list_lookup_insert_ne.
Qed.

(** Whatever the others are doing, the task of a connection can go on until it has nothing to do. *)
Lemma c104_alone e s0 evs ls s i l : goes e s0 evs ls s -> ls !! i = Some l ->
  exists more ls' s' l', Forall (own_work i) more /\ goes e s0 (evs ++ more) ls' s' /\
    ls' !! i = Some l' /\ idle e l' s' /\ (forall j, j <> i -> ls' !! j = ls !! j).
Proof.
  intros Hrun Hl. pose proof (lookup_lt_Some _ _ _ Hl) as Hlt.
  set (l1 := Link (l_conn l) [] (l_wire l ++ l_out l)).
  assert (Hw : exists ws, Forall (own_work i) ws /\ goes e s0 (evs ++ ws) (<[i := l1]> ls) s).
  { destruct (l_out l) as [|b bs] eqn:Eo.
    - exists []. split; [done|]. rewrite app_nil_r. unfold l1. rewrite app_nil_r, <-Eo.
      replace (Link (l_conn l) (l_out l) (l_wire l)) with l by (by destruct l).
      by rewrite list_insert_id.
    - exists [NWrite i (length (l_out l))]. split; [constructor; [right; by eauto|done]|].
      unfold goes. rewrite links_snoc, Hrun. cbn. rewrite Hl, Eo. cbn [length Nat.leb andb].
      rewrite Nat.leb_refl. unfold l1.
      replace (take (S (length bs)) (b :: bs)) with (b :: bs) by (symmetry; apply (firstn_all (b :: bs))).
      replace (drop (S (length bs)) (b :: bs)) with (@nil byte) by (symmetry; apply (skipn_all (b :: bs))).
      done. }
  destruct Hw as (ws & Hws & Hgo).
  destruct (goes_serves _ _ _ _ _ Hgo) as [Hco _].
  destruct (serves_keys _ _ _ _ _ Hco) as [_ Hh].
  set (ls1 := <[i := l1]> ls) in *.
  assert (Hl1 : ls1 !! i = Some l1) by (by apply list_lookup_insert).
  assert (Hc1 : map l_conn ls1 !! i = Some (l_conn l)).
  { change (map l_conn ls1) with (l_conn <$> ls1). by rewrite list_lookup_fmap, Hl1. }
  destruct (conn_rests e i _ (map l_conn ls1) s (l_conn l) Hc1 (Forall_lookup_1 _ _ _ _ Hh Hc1)
    (Nat.le_refl _)) as (n & cs' & s' & c' & Hr & Hc' & Hrest).
  destruct (own_steps e i n ls1 s cs' s') as (more & ls' & Hm & Hr' & Hcs & Ho & Hj); [|done|].
  { intros l0 Hl0. rewrite Hl1 in Hl0. by injection Hl0 as <-. }
  subst cs'. change (map l_conn ls') with (l_conn <$> ls') in Hc'.
  apply list_lookup_fmap_inv in Hc' as (l' & -> & Hl').
  exists (ws ++ more), ls', s', l'. split_and!; try done.
  - by apply Forall_app.
  - unfold goes. by rewrite app_assoc, links_app, Hgo.
  - split; [by apply Ho|done].
  - intros j Hne. rewrite Hj by done. by apply list_lookup_insert_ne.
Qed.

(** A link whose task has ended. *)
Definition over (w : bytes) (l : link) : Prop :=
  l_out l = [] /\ k_task (l_conn l) = TClosed /\ l_wire l = w.

Lemma over_event e i w ls s ev ls' s' l : links_event e (ls, s) ev = Some (ls', s') ->
  ls !! i = Some l -> over w l -> exists l', ls' !! i = Some l' /\ over w l'.
Proof.
  intros Hrun Hl (Ho & Ht & Hw). destruct (decide (link_of ev = Some i)) as [Hev|Hev].
  2: { destruct (link_frame _ _ _ _ _ _ i Hrun Hev) as [Heq|[Hn Hn']].
       - exists l. by rewrite Heq.
       - by rewrite Hl in Hn. }
  pose proof (lookup_lt_Some _ _ _ Hl) as Hlt.
  destruct ev as [|j bs|j|j|j n|j]; cbn in Hev; try done; injection Hev as ->; cbn in Hrun;
    rewrite Hl in Hrun.
  - destruct (k_eof _); [done|]. injection Hrun as <- <-.
    eexists. rewrite list_lookup_insert by done. split; [done|]. by split_and!.
  - injection Hrun as <- <-. eexists. rewrite list_lookup_insert by done. split; [done|]. by split_and!.
  - rewrite Ho in Hrun. unfold conn_step in Hrun. by rewrite Ht in Hrun.
  - rewrite Ho in Hrun. by destruct n.
  - by rewrite Ho, Ht in Hrun.
Qed.

Lemma over_run e i w evs : forall ls s ls' s' l, links_run e evs (ls, s) = Some (ls', s') ->
  ls !! i = Some l -> over w l -> exists l', ls' !! i = Some l' /\ over w l'.
Proof.
  induction evs as [|ev evs IH]; intros ls s ls' s' l Hrun Hl Ho; cbn [links_run] in Hrun.
  - injection Hrun as <- <-. by exists l.
  - destruct (links_event e (ls, s) ev) as [[ls1 s1]|] eqn:E; [|done].
    destruct (over_event _ _ _ _ _ _ _ _ _ E Hl Ho) as (l1 & Hl1 & Ho1). by eapply IH.
Qed.

(** A connection that broke: its peer gets nothing more. *)
Lemma c104_broken e s0 evs1 evs2 ls1 s1 ls2 s2 i l1 l2 :
  goes e s0 evs1 ls1 s1 -> ls1 !! i = Some l1 ->
  goes e s0 (evs1 ++ NFail i :: evs2) ls2 s2 -> ls2 !! i = Some l2 ->
  l_wire l2 = l_wire l1 /\ idle e l2 s2.
Proof.
  intros H1 Hl1 H2 Hl2. pose proof (lookup_lt_Some _ _ _ Hl1) as Hlt.
  unfold goes in H2. rewrite links_app, H1 in H2. cbn [links_run] in H2.
  destruct (links_event e (ls1, s1) (NFail i)) as [[ls s]|] eqn:E; [|done].
  assert (Hl : ls !! i = Some (Link (hung_up (l_conn l1)) [] (l_wire l1))).
  { cbn in E. rewrite Hl1 in E.
    destruct (l_out l1); [destruct (k_task _); [|done..]|]; injection E as <- <-;
      by rewrite list_lookup_insert. }
  destruct (over_run e i (l_wire l1) evs2 _ _ _ _ _ H2 Hl) as (l & Hl' & Ho & Ht & Hw); [done|].
  rewrite Hl2 in Hl'. injection Hl' as <-. split; [done|]. split; [done|].
  unfold conn_step. by rewrite Ht.
Qed.

Lemma goes_end e s0 evs :
  match links_run e evs ([], s0) with Some _ => true | None => false end = true ->
  goes e s0 evs (end_of e s0 evs).1 (end_of e s0 evs).2.
Proof. unfold goes, end_of. by destruct (links_run e evs ([], s0)) as [[ls s]|]. Qed.
