(** Proofs for C110. *)
From Verif Require Import Bytes BytesFacts Value Metrics Prog Client Wire ShareSpec WireFacts Server ServerSpec ServerProps
  CostSpec CostFacts System SystemSpec.
From stdpp Require Import gmap list.
From Coq Require Import NArith Lia.

(** What the server and the clients have each seen. *)
Record seen (e : env) (evs : list system_event) (sevs : list event) (x : system) : Prop := Seen {
  se_server : serves e store_new sevs (y_server x).1 (y_server x).2;
  se_conns : length (y_server x).1 = length (y_ends x);
  se_count : length sevs <= length evs;
  se_received : forall i l, y_ends x !! i = Some l ->
    received i sevs = take (l_carried l) (w_sent (l_wire l)) /\ l_carried l <= length (w_sent (l_wire l));
  se_ended : forall i, ended i sevs = true -> YEnd i ∈ evs;
  se_client : forall i l, y_ends x !! i = Some l ->
    exists wevs, wire_run (l_env l) (l_reqs l) wevs (wire_new (l_reqs l)) = Some (l_wire l)
}.

Lemma received_snoc i evs ev : received i (evs ++ [ev]) =
  received i evs ++ match ev with EDeliver j bs => if decide (j = i) then bs else [] | _ => [] end.
Proof. unfold received. rewrite map_app, concat_app. cbn. by rewrite app_nil_r. Qed.

Lemma ended_snoc i evs ev : ended i (evs ++ [ev]) =
  ended i evs || match ev with EEnd j => bool_decide (j = i) | _ => false end.
Proof. unfold ended. rewrite existsb_app. cbn. by rewrite orb_false_r. Qed.

Lemma serves_snoc e s0 evs ev (cs : list conn) s (y : server) :
  serves e s0 evs cs s -> server_event e (cs, s) ev = Some y -> serves e s0 (evs ++ [ev]) y.1 y.2.
Proof. unfold serves. intros H E. rewrite run_snoc, H, E. by destruct y. Qed.

Lemma event_conns e (x y : server) ev : server_event e x ev = Some y ->
  length y.1 = length x.1 + match ev with EConnect => 1 | _ => 0 end.
Proof.
  destruct x as [cs s]. destruct ev; cbn; intros E.
  - injection E as <-. cbn. by rewrite app_length.
  - destruct (cs !! i); [|done]. destruct (k_eof c); [done|]. injection E as <-. cbn. rewrite insert_length. lia.
  - destruct (cs !! i); [|done]. injection E as <-. cbn. rewrite insert_length. lia.
  - destruct (cs !! i); [|done]. destruct (k_task c) as [|[[]| | | | | | | |]| |]; try done; injection E as <-; cbn;
      rewrite insert_length; lia.
  - destruct (cs !! i); [|done]. destruct (conn_step e c s) as [[]|]; [|done]. injection E as <-. cbn.
    rewrite insert_length. lia.
Qed.

Lemma wire_step_sent e reqs x ev y : wire_step e reqs x ev = Some y -> w_sent x `prefix_of` w_sent y.
Proof.
  destruct x as [cs sent h]. destruct ev; cbn; intros E; repeat case_match; try done; injection E as <-; cbn;
    try done; by apply prefix_app_r.
Qed.

Lemma seen_at_server e evs sevs x ev yev y :
  seen e evs sevs x -> at_server e x ev = Some y ->
  match ev with EConnect | EDeliver _ _ => False | _ => True end ->
  (forall i, ev = EEnd i -> yev = YEnd i) ->
  seen e (evs ++ [yev]) (sevs ++ [ev]) y.
Proof.
  intros [Hs Hc Hn Hr Hend Hw] E Hev Hy. unfold at_server in E. destruct (y_server x) as [cs s] eqn:Ex.
  destruct (server_event e (cs, s) ev) as [srv|] eqn:Es; [|done]. injection E as <-.
  split; cbn.
  - by eapply serves_snoc.
  - rewrite (event_conns _ _ _ _ Es), <-Hc. cbn. destruct ev; try done; lia.
  - rewrite !app_length. cbn. lia.
  - intros i l Hi. rewrite received_snoc. destruct ev; try done; rewrite app_nil_r; by apply Hr.
  - intros i. rewrite ended_snoc, orb_true_iff. intros [H|H].
    + apply elem_of_app. left. by apply Hend.
    + destruct ev; try done. apply bool_decide_eq_true in H as ->. rewrite (Hy i eq_refl).
      apply elem_of_app. right. by apply elem_of_list_singleton.
  - done.
Qed.

Lemma seen_step e evs sevs x ev y :
  seen e evs sevs x -> system_step e x ev = Some y -> exists sevs', seen e (evs ++ [ev]) sevs' y.
Proof.
  intros H E. destruct ev as [ec reqs|i ev|i n|i|i|i]; cbn [system_step] in E.
  - destruct H as [Hs Hc Hn Hr Hend Hw]. destruct (y_server x) as [cs s] eqn:Ex.
    destruct (server_event e (cs, s) EConnect) as [srv|] eqn:Es; [|done]. injection E as <-.
    exists (sevs ++ [EConnect]). split; cbn [y_ends y_server].
    + by eapply serves_snoc.
    + rewrite (event_conns _ _ _ _ Es), app_length. cbn in *. lia.
    + rewrite !app_length. cbn. lia.
    + intros i l Hi. rewrite received_snoc, app_nil_r. apply lookup_app_Some in Hi as [Hi|[Hlen Hi]]; [by apply Hr|].
      apply list_lookup_singleton_Some in Hi as [Hi <-]. cbn. split; [|lia].
      (* nothing was delivered to a connection that did not exist *)
      assert (K : forall (sevs : list event) (cs : list conn) s j, serves e store_new sevs cs s -> length cs <= j ->
        received j sevs = []).
      { clear. intros sevs. induction sevs as [|ev sevs IH] using rev_ind; intros cs s j Hs Hj; [done|].
        unfold serves in Hs. rewrite run_snoc in Hs. destruct (server_run e sevs ([], store_new)) as [[cs' s']|] eqn:E; [|done].
        pose proof (event_conns _ _ _ _ Hs) as Hl. cbn in Hl. rewrite received_snoc, (IH cs' s' j E) by lia.
        destruct ev as [|k bs| | |]; try done. case_decide as Hk; [|done]. subst k. cbn in Hs.
        rewrite lookup_ge_None_2 in Hs by lia. done. }
      apply (K _ _ _ _ Hs). cbn in *. lia.
    + intros i. rewrite ended_snoc, orb_false_r. intros Hi. apply elem_of_app. left. by apply Hend.
    + intros i l Hi. apply lookup_app_Some in Hi as [Hi|[Hlen Hi]]; [by eapply Hw|].
      apply list_lookup_singleton_Some in Hi as [_ <-]. by exists [].
  - destruct H as [Hs Hc Hn Hr Hend Hw].
    destruct (y_ends x !! i) as [l|] eqn:Ei; [|done]. destruct (can_find _ _ _); [|done].
    destruct (wire_step (l_env l) (l_reqs l) (l_wire l) ev) as [w|] eqn:Ew; [|done]. injection E as <-.
    exists sevs. split; cbn [y_ends y_server].
    + done.
    + by rewrite insert_length.
    + rewrite app_length. lia.
    + intros j l' Hj. destruct (decide (j = i)) as [->|Hne].
      * rewrite list_lookup_insert in Hj by (by eapply lookup_lt_Some). injection Hj as <-. cbn.
        destruct (Hr i l Ei) as [E1 E2]. destruct (wire_step_sent _ _ _ _ _ Ew) as [k Hk]. rewrite Hk, app_length.
        split; [|lia]. by rewrite take_app_le.
      * rewrite list_lookup_insert_ne in Hj by done. by apply Hr.
    + intros j Hj. apply elem_of_app. left. by apply Hend.
    + intros j l' Hj. destruct (decide (j = i)) as [->|Hne].
      * rewrite list_lookup_insert in Hj by (by eapply lookup_lt_Some). injection Hj as <-. cbn.
        destruct (Hw i l Ei) as [wevs E]. exists (wevs ++ [ev]). rewrite wire_run_app, E. cbn. by rewrite Ew.
      * rewrite list_lookup_insert_ne in Hj by done. by eapply Hw.
  - destruct H as [Hs Hc Hn Hr Hend Hw].
    destruct (y_ends x !! i) as [l|] eqn:Ei; [|done]. destruct (decide _) as [Hd|]; [|done].
    destruct (y_server x) as [cs s] eqn:Ex.
    set (bs := take n (drop (l_carried l) (w_sent (l_wire l)))) in *.
    destruct (server_event e (cs, s) (EDeliver i bs)) as [srv|] eqn:Es; [|done]. injection E as <-.
    exists (sevs ++ [EDeliver i bs]). split; cbn [y_ends y_server].
    + by eapply serves_snoc.
    + rewrite (event_conns _ _ _ _ Es), insert_length. cbn in *. lia.
    + rewrite !app_length. cbn. lia.
    + intros j l' Hj. rewrite received_snoc. destruct (decide (j = i)) as [->|Hne].
      * rewrite list_lookup_insert in Hj by (by eapply lookup_lt_Some). injection Hj as <-. cbn.
        rewrite decide_True by done. destruct (Hr i l Ei) as [E1 E2]. rewrite E1. split; [|done].
        unfold bs. by rewrite take_take_drop.
      * rewrite list_lookup_insert_ne in Hj by done. rewrite decide_False, app_nil_r by congruence. by apply Hr.
    + intros j. rewrite ended_snoc, orb_false_r. intros Hj. apply elem_of_app. left. by apply Hend.
    + intros j l' Hj. destruct (decide (j = i)) as [->|Hne].
      * rewrite list_lookup_insert in Hj by (by eapply lookup_lt_Some). injection Hj as <-. cbn. by eapply Hw.
      * rewrite list_lookup_insert_ne in Hj by done. by eapply Hw.
  - exists (sevs ++ [EEnd i]). eapply seen_at_server; try done. by intros j [= ->].
  - exists (sevs ++ [EFail i]). by eapply seen_at_server.
  - exists (sevs ++ [EStep i]). by eapply seen_at_server.
Qed.

Lemma seen_run e evs x : system_run e evs system_new = Some x -> exists sevs, seen e evs sevs x.
Proof.
  assert (K : forall evs evs0 sevs x0, seen e evs0 sevs x0 -> system_run e evs x0 = Some x ->
    exists sevs', seen e (evs0 ++ evs) sevs' x).
  { clear evs. intros evs. induction evs as [|ev evs IH]; intros evs0 sevs x0 H E; cbn in E.
    - injection E as <-. rewrite app_nil_r. by exists sevs.
    - destruct (system_step e x0 ev) as [x1|] eqn:Es; [|done].
      destruct (seen_step _ _ _ _ _ _ H Es) as [sevs1 H1].
      destruct (IH _ _ _ H1 E) as [sevs' H']. exists sevs'. by rewrite <-app_assoc in H'. }
  intros E. destruct (K evs [] [] system_new) as [sevs H]; [|done|by exists sevs].
  split; cbn; try done; lia.
Qed.

Lemma system_run_app e evs evs' x :
  system_run e (evs ++ evs') x =
  match system_run e evs x with Some y => system_run e evs' y | None => None end.
Proof.
  revert x. induction evs as [|ev evs IH]; intros x; [done|]. cbn. by destruct (system_step e x ev).
Qed.

(** ** What the clients get *)

Lemma c110_no_answer e evs x i l j r :
  system_run e evs system_new = Some x -> y_ends x !! i = Some l ->
  w_calls (l_wire l) !! j = Some (WReturned r) ->
  r = RErr CEConnectionClosed \/ r = RErr CEWritingMessage.
Proof.
  intros E Hi Hj. destruct (seen_run _ _ _ E) as [sevs H]. destruct (se_client _ _ _ _ H i l Hi) as [wevs W].
  by eapply c83_results.
Qed.

Lemma c110_nothing_stored e evs x :
  system_run e evs system_new = Some x -> st_keys (y_server x).2 = ∅.
Proof.
  intros E. destruct (seen_run _ _ _ E) as [sevs H]. apply (c40_data _ _ _ _ _ (se_server _ _ _ _ H)).
Qed.

Lemma c110_carried e evs x :
  system_run e evs system_new = Some x ->
  exists sevs, serves e store_new sevs (y_server x).1 (y_server x).2 /\
    forall i l, y_ends x !! i = Some l -> received i sevs `prefix_of` w_sent (l_wire l).
Proof.
  intros E. destruct (seen_run _ _ _ E) as [sevs H]. exists sevs. split; [by apply H|].
  intros i l Hi. destruct (se_received _ _ _ _ H i l Hi) as [-> _]. exists (drop (l_carried l) (w_sent (l_wire l))). by rewrite take_drop.
Qed.

Lemma seen_room e evs sevs x : seen e evs sevs x -> (lenN evs < 2 ^ 64)%N -> room_during sevs store_new.
Proof.
  intros H Hn m. cbn. rewrite lookup_empty. pose proof (se_count _ _ _ _ H). unfold lenN in *. cbn [default]. lia.
Qed.

Lemma c110_bounded e evs x i l c :
  env_ok e -> (lenN evs < 2 ^ 64)%N -> system_run e evs system_new = Some x ->
  y_ends x !! i = Some l -> (y_server x).1 !! i = Some c ->
  (lenN (k_sent c) <= largest_answer * (line_ends (w_sent (l_wire l)) + if hung_up i evs then 1 else 0))%N.
Proof.
  intros He Hn E Hi Hc. destruct (seen_run _ _ _ E) as [sevs H].
  pose proof (c107_sent _ _ _ _ _ _ _ He (seen_room _ _ _ _ H Hn) (se_server _ _ _ _ H) Hc) as Hb.
  etrans; [exact Hb|]. apply N.mul_le_mono_l. unfold lines_sent. apply N.add_le_mono.
  - destruct (se_received _ _ _ _ H i l Hi) as [-> _]. unfold line_ends.
    rewrite <-(take_drop (l_carried l) (w_sent (l_wire l))) at 2. rewrite List.filter_app, lenN_app. lia.
  - destruct (ended i sevs) eqn:Ee; [|lia]. assert (hung_up i evs = true) as ->; [|lia].
    apply existsb_exists. exists (YEnd i). split; [|by apply bool_decide_eq_true].
    apply elem_of_list_In. by apply (se_ended _ _ _ _ H).
Qed.

(** ** The calls can end *)

Lemma calm_here e x i l c more w :
  y_ends x !! i = Some l -> (y_server x).1 !! i = Some c -> Forall calm more ->
  wire_run (l_env l) (l_reqs l) more (l_wire l) = Some w ->
  system_run e (map (YClient i) more) x =
    Some (System (<[i := LinkEnd (l_env l) (l_reqs l) w (l_carried l)]> (y_ends x)) (y_server x)).
Proof.
  revert x l. induction more as [|ev more IH]; intros x l Hi Hc Hm E; cbn in E.
  - injection E as <-. cbn. f_equal. destruct x as [ends srv]. cbn in *. f_equal.
    rewrite list_insert_id; [done|]. by destruct l.
  - apply Forall_cons in Hm as [Hev Hm].
    destruct (wire_step (l_env l) (l_reqs l) (l_wire l) ev) as [w1|] eqn:Es; [|done].
    cbn [map system_run system_step]. rewrite Hi.
    assert (Hf : can_find (y_server x).1 i ev = true).
    { destruct ev; try done. cbn in Hev |- *. rewrite Hc, Hev. apply bool_decide_eq_true. apply prefix_nil. }
    rewrite Hf, Es.
    rewrite (IH (System (<[i := LinkEnd (l_env l) (l_reqs l) w1 (l_carried l)]> (y_ends x)) (y_server x))
      (LinkEnd (l_env l) (l_reqs l) w1 (l_carried l))); try done; cbn.
    + f_equal. f_equal. by rewrite list_insert_insert.
    + apply list_lookup_insert. by eapply lookup_lt_Some.
Qed.

Lemma c110_finishes e evs x :
  system_run e evs system_new = Some x ->
  exists more y, system_run e (evs ++ more) system_new = Some y /\
    (forall ev, ev ∈ more -> exists i w, ev = YClient i w /\ smooth w) /\
    forall i l j c, y_ends y !! i = Some l -> w_calls (l_wire l) !! j = Some c -> is_over c.
Proof.
  intros E.
  assert (K : forall k, exists more y, system_run e (evs ++ more) system_new = Some y /\
    (forall ev, ev ∈ more -> exists i w, ev = YClient i w /\ smooth w) /\
    length (y_ends y) = length (y_ends x) /\
    forall i l j c, i < k -> y_ends y !! i = Some l -> w_calls (l_wire l) !! j = Some c -> is_over c).
  { induction k as [|k (more & y & Ey & Hm & Hl & Hk)].
    - exists [], x. split_and!; [by rewrite app_nil_r|by intros ? ?%elem_of_nil|done|intros; lia].
    - destruct (y_ends y !! k) as [l|] eqn:El.
      + destruct (seen_run _ _ _ Ey) as [sevs H]. destruct (se_client _ _ _ _ H k l El) as [wevs W].
        destruct (lookup_lt_is_Some_2 (y_server y).1 k) as [c Hc].
        { rewrite (se_conns _ _ _ _ H). by eapply lookup_lt_Some. }
        destruct (winv_run _ _ _ _ _ _ (winv_new (l_reqs l)) W) as [pieces I].
        destruct (calm_finishes (l_env l) (l_reqs l) (l_wire l) pieces I) as (more' & w & Hcalm & Hr & Hover).
        pose proof (calm_here e y k l c more' w El Hc Hcalm Hr) as Hgo.
        eexists (more ++ map (YClient k) more'), _. split_and!.
        * rewrite app_assoc, system_run_app, Ey. exact Hgo.
        * intros ev [Hin|Hin]%elem_of_app; [by apply Hm|].
          apply elem_of_list_fmap in Hin as (w' & -> & Hin). exists k, w'. split; [done|].
          apply calm_smooth. rewrite Forall_forall in Hcalm. by apply Hcalm.
        * cbn. by rewrite insert_length.
        * cbn. intros i l' j c' Hik Hi Hj. destruct (decide (i = k)) as [->|Hne].
          -- rewrite list_lookup_insert in Hi by (by eapply lookup_lt_Some). injection Hi as <-. by eapply Hover.
          -- rewrite list_lookup_insert_ne in Hi by done. eapply Hk; [|done|done]. lia.
      + exists more, y. split_and!; try done. intros i l j c Hik Hi. destruct (decide (i = k)) as [->|Hne]; [congruence|].
        intros Hj. apply (Hk i l j c); [lia|done|done]. }
  destruct (K (length (y_ends x))) as (more & y & Ey & Hm & Hl & Hk).
  exists more, y. split_and!; [done|done|]. intros i l j c Hi. eapply Hk; [|done]. rewrite <-Hl. by eapply lookup_lt_Some.
Qed.

Lemma c110_connect : client_connect false = RPanic /\ backend_connect false = RErr CEConnecting.
Proof. done. Qed.
