(** The possible behaviours of a server do not depend on the segmentation (C41). *)
From Verif Require Import Bytes BytesFacts Value CommandId Request ReqContext Response Metrics Prog
  Commands Server ServerSpec ServerFacts ServerProps.
From stdpp Require Import gmap list.
From Coq Require Import NArith ZArith Lia.
From Coq Require Import ZifyBool ZifyNat ZifyN.

(** [c'] is [c] in a run where the bytes [F], which [c] receives later, are there already and are read
    as late as possible. *)
Definition ahead (F : bytes) (c c' : conn) : Prop :=
  k_sent c' = k_sent c /\ k_task c' = k_task c /\ k_ctx c' = k_ctx c /\ k_eof c' = k_eof c /\
  match k_task c with
  | TReading => exists p, newline ∉ p /\ k_input c = k_input c' ++ p /\
      k_unread c' = p ++ k_unread c ++ F /\ k_size c = (k_size c' + lenN p)%N
  | TServing _ => k_input c = k_input c' /\ k_unread c' = k_unread c ++ F /\ k_size c = k_size c'
  | _ => True
  end.

Lemma cut_line_ahead p u l rest F : newline ∉ p -> cut_line u = Some (l, rest) ->
  cut_line (p ++ u ++ F) = Some (p ++ l, rest ++ F).
Proof.
  revert u l rest. induction p as [|b p IH]; intros u l rest Hp Hu.
  - cbn [app]. revert l rest Hu. induction u as [|b u IHu]; intros l rest Hu; [done|].
    cbn [app cut_line] in Hu |- *. destruct (b2n b =? 10)%N; [by simplify_eq|].
    destruct (cut_line u) as [[l0 r0]|] eqn:E; [|done]. simplify_eq.
    by rewrite (IHu _ _ eq_refl).
  - apply not_elem_of_cons in Hp as [Hb Hp]. cbn [app cut_line].
    destruct (b2n b =? 10)%N eqn:E; [by apply newline_10 in E; subst|].
    by rewrite (IH _ _ _ Hp Hu).
Qed.

Lemma cut_line_quiet p : newline ∉ p -> cut_line p = None.
Proof.
  induction p as [|b p IH]; intros Hp; [done|].
  apply not_elem_of_cons in Hp as [Hb Hp]. cbn [cut_line].
  destruct (b2n b =? 10)%N eqn:E; [by apply newline_10 in E; subst|]. by rewrite IH.
Qed.

Lemma handle_ahead e u eof input x sent F :
  ahead F (handle e u eof input x sent) (handle e (u ++ F) eof input x sent).
Proof.
  unfold handle. destruct (req_feed x input) as [x' []]; unfold ahead; cbn;
    split_and!; try done.
  all: exists []; rewrite ?app_nil_r; split_and!; try done; try apply not_elem_of_nil.
Qed.

(** A step of [c] is matched by at most two steps of [c']. *)
Lemma step_ahead e s F c c' d s' : ahead F c c' -> (k_eof c = true -> F = []) ->
  conn_step e c s = Some (d, s') ->
  (s' = s /\ ahead F d c') \/
  (exists d', conn_step e c' s = Some (d', s') /\ ahead F d d') \/
  (exists b d', conn_step e c' s = Some (b, s) /\ conn_step e b s = Some (d', s') /\ ahead F d d').
Proof.
  intros (H1 & H2 & H3 & H4 & H5) HF Hs.
  destruct c as [u eof n i x t k], c' as [u' eof' n' i' x' t' k']. cbn in *. subst t' k' x' eof'.
  unfold conn_step in Hs |- *. cbn [k_task k_unread k_eof k_size k_input k_ctx k_sent] in *.
  destruct k as [|p| |]; try done.
  - destruct H5 as (p & Hp & -> & -> & ->).
    destruct (cut_line u) as [[l rest]|] eqn:El.
    + injection Hs as <- <-. right. left.
      rewrite (cut_line_ahead _ _ _ _ F Hp El). eexists. split; [reflexivity|].
      rewrite <- app_assoc. apply handle_ahead.
    + destruct u as [|b u].
      * destruct eof; [|done]. specialize (HF eq_refl) as ->. cbn [app] in *. rewrite app_nil_r.
        rewrite (cut_line_quiet _ Hp).
        destruct (_ =? 0)%N eqn:En in Hs.
        -- injection Hs as <- <-. right; left.
           assert (n' = 0%N) as -> by lia. destruct p as [|b p]; [|rewrite lenN_cons in En; lia].
           cbn. eexists. split; [reflexivity|]. done.
        -- injection Hs as <- <-. destruct p as [|b p].
           ++ right; left. rewrite lenN_nil, N.add_0_r in En. rewrite En, app_nil_r.
              eexists. split; [reflexivity|]. apply (handle_ahead e [] true i' x t []).
           ++ right; right. eexists _, _. split; [reflexivity|].
              cbn [k_task k_unread k_eof k_size k_input k_ctx k_sent cut_line]. rewrite En.
              split; [reflexivity|]. apply (handle_ahead e [] true (i' ++ b :: p) x t []).
      * injection Hs as <- <-. left. split; [done|]. unfold ahead. cbn. split_and!; try done.
        exists (p ++ b :: u). split_and!.
        -- rewrite not_elem_of_app. split; [done|]. by apply cut_line_none.
        -- by rewrite <- app_assoc.
        -- by rewrite <- app_assoc.
        -- rewrite lenN_app. lia.
  - destruct H5 as (-> & -> & ->). right; left.
    destruct p as [r| | | | | | | | ] eqn:Ep; try (destruct (pstep _ _) as [[p' s1]|]; [|done]);
      injection Hs as <- <-; (eexists; split; [reflexivity|]); try done.
    unfold answer. destruct r; cbn; unfold ahead; cbn; split_and!; try done.
    all: exists []; rewrite ?app_nil_r; split_and!; try done; try apply not_elem_of_nil.
Qed.

Lemma received_cons i ev evs : received i (ev :: evs) =
  (match ev with EDeliver j bs => if decide (j = i) then bs else [] | _ => [] end) ++ received i evs.
Proof. done. Qed.

Lemma conn_step_eof e c s d s' : conn_step e c s = Some (d, s') -> k_eof d = k_eof c.
Proof.
  destruct c as [u eof n i x t k]. unfold conn_step, handle, answer.
  cbn [k_task k_unread k_eof k_size k_input k_ctx k_sent]. intros H.
  repeat case_match; simplify_eq; done.
Qed.

(** Nothing arrives after the end. *)
Lemma eof_received e i evs : forall cs s x c, server_run e evs (cs, s) = Some x ->
  cs !! i = Some c -> k_eof c = true -> received i evs = [].
Proof.
  induction evs as [|ev evs IH]; intros cs s x c Hr Hc He; [done|].
  cbn [server_run] in Hr. destruct (server_event e (cs, s) ev) as [[cs1 s1]|] eqn:Ev; [|done].
  rewrite received_cons.
  enough (exists c1, cs1 !! i = Some c1 /\ k_eof c1 = true /\
    (match ev with EDeliver j bs => if decide (j = i) then bs else [] | _ => [] end) = [])
    as (c1 & Hc1 & He1 & ->) by (cbn [app]; eauto).
  destruct ev as [|j bs|j|j|j]; cbn [server_event] in Ev.
  - simplify_eq. exists c. split_and!; try done. by apply lookup_app_l_Some.
  - destruct (cs !! j) as [cj|] eqn:Ej; [|done]. destruct (k_eof cj) eqn:Eof; [done|].
    simplify_eq. rewrite decide_False by congruence.
    exists c. rewrite list_lookup_insert_ne by congruence. done.
  - destruct (cs !! j) as [cj|] eqn:Ej; [|done]. simplify_eq.
    destruct (decide (j = i)) as [->|].
    + eexists. rewrite list_lookup_insert by (by eapply lookup_lt_Some). done.
    + exists c. by rewrite list_lookup_insert_ne.
  - destruct (cs !! j) as [cj|] eqn:Ej; [|done].
    destruct (decide (j = i)) as [->|].
    + repeat case_match; simplify_eq; (eexists;
        rewrite list_lookup_insert by (by eapply lookup_lt_Some); done).
    + repeat case_match; simplify_eq; (exists c; by rewrite list_lookup_insert_ne).
  - destruct (cs !! j) as [cj|] eqn:Ej; [|done].
    destruct (conn_step e cj s) as [[d s2]|] eqn:Es; [|done]. simplify_eq.
    destruct (decide (j = i)) as [->|].
    + eexists. rewrite list_lookup_insert by (by eapply lookup_lt_Some). split_and!; try done.
      rewrite (conn_step_eof _ _ _ _ _ Es). congruence.
    + exists c. by rewrite list_lookup_insert_ne.
Qed.

Lemma pieces_app i a b : pieces i (a ++ b) = pieces i a ++ pieces i b.
Proof. apply omap_app. Qed.
Lemma besides_app i a b : besides i (a ++ b) = besides i a ++ besides i b.
Proof. apply List.filter_app. Qed.

Lemma step_event e i cs s c d s' : cs !! i = Some c -> conn_step e c s = Some (d, s') ->
  server_event e (cs, s) (EStep i) = Some (<[i := d]> cs, s').
Proof. intros H1 H2. cbn [server_event]. by rewrite H1, H2. Qed.

(** From a moment when the connection exists. *)
Lemma run_ahead e i evs : forall cs s c c' csf sf,
  server_run e evs (cs, s) = Some (csf, sf) -> cs !! i = Some c ->
  ahead (received i evs) c c' ->
  exists evs' cf c'f,
    server_run e evs' (<[i := c']> cs, s) = Some (<[i := c'f]> csf, sf) /\
    csf !! i = Some cf /\ ahead [] cf c'f /\ pieces i evs' = [] /\ besides i evs' = besides i evs.
Proof.
  induction evs as [|ev evs IH]; intros cs s c c' csf sf Hr Hc Ha.
  { cbn in Hr. simplify_eq. exists [], c, c'. done. }
  pose proof (fun H => eof_received e i (ev :: evs) cs s _ c Hr Hc H) as Heof.
  cbn [server_run] in Hr. destruct (server_event e (cs, s) ev) as [[cs1 s1]|] eqn:Ev; [|done].
  pose proof (lookup_lt_Some _ _ _ Hc) as Hlt.
  (* what one event must be matched with *)
  assert (forall c1 c1' evs1, cs1 !! i = Some c1 -> ahead (received i evs) c1 c1' ->
    server_run e evs1 (<[i := c']> cs, s) = Some (<[i := c1']> cs1, s1) ->
    pieces i evs1 = [] -> besides i evs1 = besides i [ev] ->
    exists evs' cf c'f,
    server_run e evs' (<[i := c']> cs, s) = Some (<[i := c'f]> csf, sf) /\
    csf !! i = Some cf /\ ahead [] cf c'f /\ pieces i evs' = [] /\
    besides i evs' = besides i (ev :: evs)) as Hgo.
  { intros c1 c1' evs1 H1 H2 H3 H4 H5.
    destruct (IH _ _ _ _ _ _ Hr H1 H2) as (evs2 & cf & c'f & G1 & G2 & G3 & G4 & G5).
    exists (evs1 ++ evs2), cf, c'f. rewrite run_app, H3. split_and!; try done.
    - rewrite pieces_app, H4, G4. done.
    - rewrite besides_app, H5, G5. change (ev :: evs) with ([ev] ++ evs). by rewrite besides_app. }
  rewrite received_cons in Ha.
  destruct ev as [|j bs|j|j|j]; cbn [server_event] in Ev.
  - simplify_eq. apply (Hgo c c' [EConnect]); try done; [by apply lookup_app_l_Some|].
    cbn. by rewrite insert_app_l.
  - destruct (cs !! j) as [cj|] eqn:Ej; [|done]. destruct (k_eof cj) eqn:Eof; [done|]. simplify_eq.
    destruct (decide (j = i)) as [->|Hne].
    + rewrite Hc in Ej. simplify_eq.
      apply (Hgo (Conn (k_unread cj ++ bs) false (k_size cj) (k_input cj) (k_ctx cj)
                          (k_sent cj) (k_task cj)) c' []).
      * by rewrite list_lookup_insert.
      * destruct Ha as (H1 & H2 & H3 & H4 & H5). unfold ahead. cbn. split_and!; try done.
        -- congruence.
        -- destruct (k_task cj); try done.
           ++ destruct H5 as (p & Hp & G1 & G2 & G3). exists p. split_and!; try done.
              by rewrite G2, !app_assoc.
           ++ destruct H5 as (G1 & G2 & G3). split_and!; try done. by rewrite G2, !app_assoc.
      * cbn. by rewrite list_insert_insert.
      * done.
      * cbn. by rewrite bool_decide_eq_true_2.
    + apply (Hgo c c' [EDeliver j bs]).
      * by rewrite list_lookup_insert_ne.
      * done.
      * cbn. rewrite list_lookup_insert_ne by done. rewrite Ej, Eof.
        by rewrite list_insert_commute.
      * cbn. by rewrite decide_False.
      * done.
  - destruct (cs !! j) as [cj|] eqn:Ej; [|done]. simplify_eq.
    destruct (decide (j = i)) as [->|Hne].
    + rewrite Hc in Ej. simplify_eq.
      eapply (Hgo _ (Conn (k_unread c') true (k_size c') (k_input c') (k_ctx c') (k_sent c')
                     (k_task c')) [EEnd i]).
      * by rewrite list_lookup_insert.
      * destruct Ha as (H1 & H2 & H3 & H4 & H5). unfold ahead. cbn. split_and!; done.
      * cbn. rewrite list_lookup_insert by done. by rewrite !list_insert_insert.
      * done.
      * done.
    + apply (Hgo c c' [EEnd j]); try done.
      * by rewrite list_lookup_insert_ne.
      * cbn. rewrite list_lookup_insert_ne by done. rewrite Ej.
        by rewrite list_insert_commute.
  - destruct (cs !! j) as [cj|] eqn:Ej; [|done].
    destruct (decide (j = i)) as [->|Hne].
    + rewrite Hc in Ej. simplify_eq. destruct Ha as (H1 & H2 & H3 & H4 & H5).
      eapply (Hgo (Conn (k_unread cj) (k_eof cj) (k_size cj) (k_input cj) (k_ctx cj) (k_sent cj)
                       TClosed)
              (Conn (k_unread c') (k_eof c') (k_size c') (k_input c') (k_ctx c') (k_sent c')
                       TClosed) [EFail i]); try done.
      * repeat case_match; simplify_eq; by rewrite list_lookup_insert.
      * cbn. rewrite list_lookup_insert by done. rewrite H2, !list_insert_insert.
        repeat case_match; simplify_eq; by rewrite list_insert_insert.
    + apply (Hgo c c' [EFail j]); try done.
      * repeat case_match; simplify_eq; by rewrite list_lookup_insert_ne.
      * cbn. rewrite list_lookup_insert_ne by done. rewrite Ej.
        repeat case_match; simplify_eq; by rewrite list_insert_commute.
  - destruct (cs !! j) as [cj|] eqn:Ej; [|done].
    destruct (conn_step e cj s) as [[d s2]|] eqn:Es; [|done]. simplify_eq.
    destruct (decide (j = i)) as [->|Hne].
    + rewrite Hc in Ej. simplify_eq. cbn [app] in Ha.
      assert (besides i [EStep i] = []) as Hb by (cbn; by rewrite bool_decide_eq_true_2).
      assert (forall x, <[i := c']> cs !! i = Some x <-> x = c') as Hi.
      { intros x. rewrite list_lookup_insert by done. naive_solver. }
      destruct (step_ahead e s (received i evs) cj c' d s1 Ha Heof Es)
        as [[-> H]|[(d' & G1 & G2)|(b & d' & G0 & G1 & G2)]].
      * apply (Hgo d c' []); try done; [by rewrite list_lookup_insert|].
        cbn. by rewrite list_insert_insert.
      * apply (Hgo d d' [EStep i]); try done; [by rewrite list_lookup_insert|].
        cbn [server_run]. rewrite (step_event e i _ s c' d' s1); [|by apply Hi|done].
        by rewrite !list_insert_insert.
      * apply (Hgo d d' [EStep i; EStep i]); try done.
        -- by rewrite list_lookup_insert.
        -- cbn [server_run]. rewrite (step_event e i _ s c' b s); [|by apply Hi|done].
           rewrite (step_event e i _ s b d' s1); [|by rewrite list_insert_insert, list_lookup_insert|done].
           by rewrite !list_insert_insert.
        -- rewrite Hb. cbn. by rewrite bool_decide_eq_true_2.
    + apply (Hgo c c' [EStep j]); try done.
      * by rewrite list_lookup_insert_ne.
      * cbn. rewrite list_lookup_insert_ne by done. rewrite Ej, Es.
        by rewrite list_insert_commute.
Qed.

Lemma deliver_all e i cs s : forall ps u n inp x t k,
  cs !! i = Some (Conn u false n inp x t k) ->
  server_run e (map (EDeliver i) ps) (cs, s) =
    Some (<[i := Conn (u ++ concat ps) false n inp x t k]> cs, s).
Proof.
  intros ps. revert cs. induction ps as [|p ps IH]; intros cs u n inp x t k Hc.
  - cbn. by rewrite app_nil_r, list_insert_id.
  - cbn [map server_run server_event]. rewrite Hc. cbn [k_eof k_unread k_size k_input k_ctx k_sent k_task].
    rewrite (IH _ (u ++ p) n inp x t k).
    + rewrite list_insert_insert. cbn. by rewrite <- app_assoc.
    + rewrite list_lookup_insert; [done|]. by eapply lookup_lt_Some.
Qed.

(** From a moment when it does not exist. *)
Lemma run_recut e i evs ps : forall cs s csf sf,
  server_run e evs (cs, s) = Some (csf, sf) -> cs !! i = None -> is_Some (csf !! i) ->
  concat ps = received i evs ->
  exists evs' cf c'f,
    server_run e evs' (cs, s) = Some (<[i := c'f]> csf, sf) /\
    csf !! i = Some cf /\ ahead [] cf c'f /\ pieces i evs' = ps /\ besides i evs' = besides i evs.
Proof.
  induction evs as [|ev evs IH]; intros cs s csf sf Hr Hc [cf Hf] Hps.
  { cbn in Hr. simplify_eq. }
  cbn [server_run] in Hr. destruct (server_event e (cs, s) ev) as [[cs1 s1]|] eqn:Ev; [|done].
  destruct (cs1 !! i) as [c1|] eqn:Hc1.
  - assert (ev = EConnect /\ cs1 = cs ++ [conn_new] /\ s1 = s) as (-> & -> & ->).
    { destruct ev; cbn [server_event] in Ev; repeat case_match; simplify_eq; try done;
        rewrite list_lookup_insert_is_Some in Hc1 || idtac.
      all: exfalso; assert (is_Some (cs !! i)) as [? ?];
        [eapply lookup_lt_is_Some; apply lookup_lt_Some in Hc1; by rewrite insert_length in Hc1|congruence]. }
    assert (i = length cs) as ->.
    { apply lookup_lt_Some in Hc1. apply lookup_ge_None in Hc. rewrite app_length in Hc1. cbn in Hc1. lia. }
    rewrite list_lookup_middle in Hc1 by done. injection Hc1 as <-.
    cbn [received] in Hps. rewrite received_cons in Hps. cbn [app] in Hps.
    destruct (run_ahead e (length cs) evs (cs ++ [conn_new]) s conn_new
      (Conn (concat ps) false 0 [] req_ctx_new [] TReading) csf sf) as (evs2 & cf' & c'f & G1 & G2 & G3 & G4 & G5).
    { done. } { by rewrite list_lookup_middle. }
    { unfold ahead. cbn. split_and!; try done. exists []. split_and!; try done; try apply not_elem_of_nil.
      all: by rewrite Hps. }
    exists (EConnect :: map (EDeliver (length cs)) ps ++ evs2), cf', c'f. split_and!; try done.
    + cbn [server_run server_event]. rewrite run_app.
      rewrite (deliver_all e (length cs) _ s ps [] 0%N [] req_ctx_new [] TReading) by (by rewrite list_lookup_middle).
      done.
    + change (EConnect :: map (EDeliver (length cs)) ps ++ evs2) with ([EConnect] ++ map (EDeliver (length cs)) ps ++ evs2).
      rewrite !pieces_app, G4, app_nil_r. change (pieces (length cs) [EConnect]) with (@nil bytes). cbn [app].
      generalize (length cs). clear. intros n. induction ps as [|p ps IH]; [done|].
      unfold pieces in *. cbn [map omap list_omap]. rewrite decide_True by done. by f_equal.
    + change (EConnect :: map (EDeliver (length cs)) ps ++ evs2) with ([EConnect] ++ map (EDeliver (length cs)) ps ++ evs2).
      rewrite !besides_app, G5. change (EConnect :: evs) with ([EConnect] ++ evs). rewrite besides_app.
      f_equal. replace (besides _ (map _ ps)) with (@nil event); [done|].
      clear. induction ps as [|p ps IH]; [done|]. cbn. rewrite bool_decide_eq_true_2 by done. done.
  - assert (received i (ev :: evs) = received i evs /\ pieces i [ev] = []) as [E1 E2].
    { rewrite received_cons. destruct ev as [|j bs|j|j|j]; try done.
      cbn [server_event] in Ev. destruct (cs !! j) eqn:Ej; [|done]. cbn.
      rewrite !decide_False by congruence. done. }
    rewrite E1 in Hps.
    destruct (IH _ _ _ _ Hr Hc1 ltac:(by eexists) Hps) as (evs' & cf' & c'f & G1 & G2 & G3 & G4 & G5).
    exists (ev :: evs'), cf', c'f. split_and!; try done.
    + cbn [server_run]. by rewrite Ev.
    + change (ev :: evs') with ([ev] ++ evs'). by rewrite pieces_app, E2, G4.
    + change (ev :: evs') with ([ev] ++ evs'). change (ev :: evs) with ([ev] ++ evs).
      by rewrite !besides_app, G5.
Qed.

Lemma c41_any e s0 evs cs s i c ps :
  serves e s0 evs cs s -> cs !! i = Some c -> concat ps = received i evs ->
  exists evs' c', serves e s0 evs' (<[i := c']> cs) s /\
    pieces i evs' = ps /\ besides i evs' = besides i evs /\
    k_sent c' = k_sent c /\ k_task c' = k_task c /\ (at_rest e c s -> at_rest e c' s).
Proof.
  intros Hs Hc Hps. unfold serves in *.
  destruct (run_recut e i evs ps [] s0 cs s Hs eq_refl ltac:(by eexists) Hps)
    as (evs' & cf & c' & G1 & G2 & G3 & G4 & G5).
  rewrite Hc in G2. injection G2 as <-.
  pose proof (lookup_lt_Some _ _ _ Hc) as Hlt.
  assert (forall evs' : list event, besides i (evs' ++ [EStep i]) = besides i evs' /\ pieces i (evs' ++ [EStep i]) = pieces i evs') as Hst.
  { intros l. rewrite besides_app, pieces_app. cbn. rewrite bool_decide_eq_true_2 by done. by rewrite !app_nil_r. }
  destruct (conn_step e c s) as [[d s']|] eqn:Es.
  - exists evs', c'. unfold at_rest. destruct G3 as (H1 & H2 & _). split_and!; try done. congruence.
  - destruct (conn_step e c' s) as [[d' s']|] eqn:Es'.
    2: { exists evs', c'. unfold at_rest. destruct G3 as (H1 & H2 & _). split_and!; done. }
    (* read what is there *)
    exists (evs' ++ [EStep i]), d'.
    assert (s' = s /\ k_sent d' = k_sent c /\ k_task d' = k_task c /\ conn_step e d' s = None) as (-> & K1 & K2 & K3).
    { destruct G3 as (H1 & H2 & H3 & H4 & H5).
      destruct c as [u eof n inp x t k], c' as [u' eof' n' inp' x' t' k']. cbn in *. subst t' k' x' eof'.
      unfold conn_step in Es, Es'. cbn [k_task k_unread k_eof k_size k_input k_ctx k_sent] in *.
      destruct k as [|p| |]; try done.
      - destruct (cut_line u) as [[]|] eqn:El; [done|]. destruct u; [|done]. destruct eof; [by destruct (n =? 0)%N|].
        destruct H5 as (p & Hp & -> & -> & ->). cbn in Es'. rewrite app_nil_r in Es'.
        rewrite (cut_line_quiet _ Hp) in Es'. destruct p as [|b p]; [done|]. injection Es' as <- <-.
        unfold conn_step. cbn. done.
      - destruct p; try done; destruct (pstep _ s) as [[]|]; done. }
    split_and!; try done.
    + rewrite run_app, G1. cbn [server_run]. rewrite (step_event e i _ s c' d' s); [|by rewrite list_lookup_insert|done].
      by rewrite list_insert_insert.
    + rewrite (proj2 (Hst evs')). done.
    + rewrite (proj1 (Hst evs')). done.
Qed.
