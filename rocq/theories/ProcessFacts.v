(** The lemmas behind C78 and C79. *)
From Coq Require Import String.
From Verif Require Import Bytes BytesFacts Value CommandId Request Metrics Prog Commands Cli CliSpec
  CliFacts Server ServerSpec Process ProcessSpec.
From stdpp Require Import list.
From Coq Require Import NArith ZArith Lia.
From Coq Require Import ZifyBool ZifyNat ZifyN.
From Coq.Init Require Import Byte.

Lemma u16_checked_spec z r : u16_checked z = Some r <-> r = z /\ (0 <= z < 65536)%Z.
Proof.
  unfold u16_checked. destruct ((0 <=? z)%Z && (z <? 65536)%Z) eqn:H.
  - split; [intros [= <-]; split; [done|lia]|by intros [-> _]].
  - split; [done|intros [_ ?]; lia].
Qed.

Lemma parse_digits_u16_spec s pre n z : digits pre n -> (n < 65536)%Z ->
  parse_digits_u16 n s = Some z <-> digits (pre ++ s) z /\ (z < 65536)%Z.
Proof.
  revert pre n. induction s as [|b s IH]; intros pre n Hpre Hn; cbn.
  { rewrite app_nil_r. split; [by intros [= <-]|]. intros [Hm _]. f_equal.
    exact (digits_unique _ _ _ Hpre Hm). }
  replace (pre ++ b :: s) with ((pre ++ [b]) ++ s) by by rewrite <- app_assoc.
  pose proof (digits_nonneg _ _ Hpre) as Hn0.
  destruct (digit b) as [d|] eqn:Hd.
  - pose proof (n2b_digit _ _ Hd) as [Hd' Hb].
    assert (Hpb : digits (pre ++ [b]) (10 * n + d)) by (rewrite Hb; by constructor).
    destruct (u16_checked (n * 10)) as [a|] eqn:Ha.
    + apply u16_checked_spec in Ha as [-> Ha].
      replace (n * 10 + d)%Z with (10 * n + d)%Z by lia.
      destruct (u16_checked (10 * n + d)) as [a|] eqn:Ha'.
      * apply u16_checked_spec in Ha' as [-> Ha']. apply IH; [done|lia].
      * split; [done|]. intros [Hm Hr]. exfalso.
        assert (10 * n + d <= z)%Z as Hle by by eapply digits_prefix_le.
        assert (Hx : u16_checked (10 * n + d) = Some (10 * n + d)%Z) by (apply u16_checked_spec; lia).
        congruence.
    + split; [done|]. intros [Hm Hr]. exfalso.
      assert (10 * n + d <= z)%Z as Hle by by eapply digits_prefix_le.
      assert (Hx : u16_checked (n * 10) = Some (n * 10)%Z) by (apply u16_checked_spec; lia).
      congruence.
  - split; [done|]. intros [Hm _]. exfalso. by eapply digits_prefix_digit.
Qed.

Lemma parse_u16_spec w n : parse_u16 w = Some n <-> port_number w n.
Proof.
  assert (Hp : forall s, parse_digits_u16 0 s = Some n <-> digits s n /\ (n < 65536)%Z).
  { intros s. apply (parse_digits_u16_spec s []); [constructor|lia]. }
  unfold port_number. change (lit "+"%string) with [x2b]. destruct w as [|b r].
  { cbn. split; [done|]. intros (ds & _ & Hne & [H|H] & _); [by subst|done]. }
  cbn [parse_u16]. destruct (decide (b = x2b)) as [->|Hplus].
  - destruct r as [|b r].
    + split; [done|]. intros (ds & Hds & Hne & [<-|[= <-]] & _); [|done].
      by apply digits_head in Hds as [? _].
    + rewrite Hp. split.
      * intros [Hd Hn]. exists (b :: r). split_and!; [done|done|by right|done].
      * intros (ds & Hds & Hne & [<-|[= <-]] & Hn); [|done]. by apply digits_head in Hds as [? _].
  - rewrite Hp. split.
    + intros [Hd Hn]. exists (b :: r). split_and!; [done|done|by left|done].
    + intros (ds & Hds & Hne & [<-|[= ? _]] & Hn); done.
Qed.

Lemma port_number_unique w n m : port_number w n -> port_number w m -> n = m.
Proof. intros Hn%parse_u16_spec Hm%parse_u16_spec. congruence. Qed.

(** The port is the number given, or else 46733, whatever the host. *)
Lemma c78_port (ip : Type) (any : ip) parse_ip host port :
  let c := sconfig_new any parse_ip host port in
  (forall w n, port = Some w -> port_number w n -> sc_port c = n) /\
  ((forall w n, port = Some w -> ~ port_number w n) -> sc_port c = 46733%Z).
Proof.
  split.
  - intros w n -> Hn%parse_u16_spec. cbn. by rewrite Hn.
  - intros Hno. cbn. destruct port as [w|]; [|done]. destruct (parse_u16 w) as [n|] eqn:E; [|done].
    apply parse_u16_spec in E. by destruct (Hno w n).
Qed.

(** The host is the address given, or else the default, whatever the port. *)
Lemma c78_host (ip : Type) (any : ip) parse_ip host port :
  let c := sconfig_new any parse_ip host port in
  (forall w a, host = Some w -> parse_ip w = Some a -> sc_host c = a) /\
  ((forall w a, host = Some w -> parse_ip w <> Some a) -> sc_host c = any).
Proof.
  split.
  - intros w a -> Ha. cbn. by rewrite Ha.
  - intros Hno. cbn. destruct host as [w|]; [|done]. destruct (parse_ip w) as [a|] eqn:E; [|done].
    by destruct (Hno w a).
Qed.

(** ** The process *)

Lemma process_run_app e a b x :
  process_run e (a ++ b) x = match process_run e a x with Some y => process_run e b y | None => None end.
Proof.
  revert x. induction a as [|ev a IH]; intros x; cbn; [done|]. by destruct (process_step e x ev).
Qed.

Lemma main_listening e evs : forall x y, process_run e evs x = Some y ->
  p_main x = MListening ->
  (p_main y = MListening <-> PAcceptFail ∉ evs).
Proof.
  induction evs as [|ev evs IH]; intros x y Hr Hx; cbn in Hr.
  - injection Hr as <-. split; [|done]. intros _ H. by apply elem_of_nil in H.
  - destruct (process_step e x ev) as [x'|] eqn:E; [|done]. rewrite not_elem_of_cons.
    assert (Hok : p_main x' = MListening -> PAcceptFail <> ev ->
      p_main y = MListening <-> PAcceptFail <> ev /\ PAcceptFail ∉ evs).
    { intros Hl Hne. rewrite (IH _ _ Hr Hl). naive_solver. }
    destruct ev as [ok| | | |ev|]; cbn [process_step] in E; rewrite ?Hx in E; try done.
    + destruct (server_event _ _ _); [|done]. injection E as <-. by apply Hok.
    + injection E as <-. by apply Hok.
    + injection E as <-. split; [|naive_solver]. intros Hy. exfalso.
      clear -Hr Hy. cbn in Hr.
      assert (H : forall evs x, process_run e evs x = Some y ->
        p_main x = MReturned \/ p_main x = MExited -> p_main y <> MListening).
      { clear. induction evs as [|ev evs IH]; intros x Hr Hx; cbn in Hr.
        - injection Hr as <-. by destruct Hx as [-> | ->].
        - destruct (process_step e x ev) as [x'|] eqn:E; [|done]. eapply IH; [done|].
          destruct Hx as [Hx|Hx]; destruct ev as [ok| | | |ev|]; cbn [process_step] in E; rewrite ?Hx in E; try done.
          + destruct ev; try done; destruct (server_event _ _ _); try done; injection E as <-; by left.
          + injection E as <-. by right.
          + by destruct ev. }
      eapply H; [exact Hr|by left|done].
    + assert (p_main x' = MListening) as Hl.
      { destruct ev; try done; destruct (server_event _ _ _); try done; by injection E as <-. }
      by apply Hok.
Qed.

(** It accepts connections exactly when it could bind and no accept has failed. *)
Lemma c79_accepts e evs x :
  process_after e evs x ->
  (accepts e x <-> PBind true ∈ evs /\ PAcceptFail ∉ evs).
Proof.
  unfold process_after. intros Hr.
  assert (Hacc : accepts e x <-> p_main x = MListening).
  { unfold accepts. cbn. destruct (p_main x); split; try done; try (by intros [? ?]).
    intros _. destruct (p_server x). cbn. eauto. }
  rewrite Hacc. destruct evs as [|ev evs].
  { cbn in Hr. injection Hr as <-. cbn. split; [done|]. intros [H _]. by apply elem_of_nil in H. }
  cbn in Hr. destruct (process_step e process_new ev) as [x1|] eqn:E; [|done].
  destruct ev as [[]| | | |ev|]; cbn [process_step] in E; try done; try (by destruct ev).
  - injection E as <-. rewrite (main_listening _ _ _ _ Hr eq_refl), not_elem_of_cons.
    split; [|naive_solver]. intros H. split; [left|done].
  - injection E as <-. split.
    + intros Hl. exfalso. revert Hr Hl. generalize (p_server process_new) as s, (p_gone process_new) as g.
      assert (H : forall evs x0, process_run e evs x0 = Some x ->
        p_main x0 = MReturned \/ p_main x0 = MExited -> p_main x <> MListening).
      { clear. induction evs as [|ev evs IH]; intros x0 Hr Hx; cbn in Hr.
        - injection Hr as <-. by destruct Hx as [-> | ->].
        - destruct (process_step e x0 ev) as [x'|] eqn:E; [|done]. eapply IH; [done|].
          destruct Hx as [Hx|Hx]; destruct ev as [ok| | | |ev|]; cbn [process_step] in E; rewrite ?Hx in E; try done.
          + destruct ev; try done; destruct (server_event _ _ _); try done; injection E as <-; by left.
          + injection E as <-. by right.
          + by destruct ev. }
      intros s g Hr. eapply H; [exact Hr|by left].
    + intros [Hin _]. exfalso. apply elem_of_cons in Hin as [?|Hin]; [done|].
      assert (H : forall evs x0, process_run e evs x0 = Some x -> p_main x0 <> MStarting -> PBind true ∉ evs).
      { clear. induction evs as [|ev evs IH]; intros x0 Hr Hx; cbn in Hr.
        - intros H. by apply elem_of_nil in H.
        - destruct (process_step e x0 ev) as [x'|] eqn:E; [|done].
          rewrite not_elem_of_cons. split.
          + intros <-. cbn [process_step] in E. by destruct (p_main x0).
          + eapply IH; [done|]. destruct ev as [ok| | | |ev|]; cbn [process_step] in E.
            * by destruct (p_main x0).
            * destruct (p_main x0); try done. destruct (server_event _ _ _); try done. by injection E as <-.
            * destruct (p_main x0); try done. by injection E as <-.
            * destruct (p_main x0); try done. by injection E as <-.
            * destruct ev; try done; destruct (p_main x0) eqn:Em; try done;
                destruct (server_event _ _ _); try done; by injection E as <-.
            * destruct (p_main x0); try done. by injection E as <-. }
      by eapply H.
Qed.

(** Once an accept has failed, nobody can connect any more, whatever happens; and the process
    can end at any moment with everything it stored. *)
Lemma c79_false e evs1 evs2 x :
  process_after e (evs1 ++ PAcceptFail :: evs2) x ->
  ~ accepts e x /\ PAccept ∉ evs2 /\
  (PShutdown ∉ evs2 -> process_step e x PShutdown = Some (Process MExited ([], store_new) 0)).
Proof.
  intros Hr. split; [|split].
  - rewrite (c79_accepts _ _ _ Hr). intros [_ H]. apply H, elem_of_app. right. left.
  - unfold process_after in Hr. intros (a & b & ->)%elem_of_list_split.
    replace (evs1 ++ PAcceptFail :: a ++ PAccept :: b) with ((evs1 ++ PAcceptFail :: a) ++ PAccept :: b)
      in Hr by by rewrite <-app_assoc.
    rewrite process_run_app in Hr.
    destruct (process_run e (evs1 ++ PAcceptFail :: a) process_new) as [y|] eqn:Ey; [|done].
    cbn [process_run] in Hr. destruct (process_step e y PAccept) as [y'|] eqn:Ea; [|done].
    assert (accepts e y) as Hy by (unfold accepts; rewrite Ea; eauto).
    rewrite (c79_accepts _ _ _ Ey) in Hy. destruct Hy as [_ Hy]. apply Hy, elem_of_app. right. left.
  - unfold process_after in Hr. rewrite process_run_app in Hr.
    destruct (process_run e evs1 process_new) as [y|]; [|done]. cbn [process_run] in Hr.
    destruct (process_step e y PAcceptFail) as [y'|] eqn:Ea; [|done].
    assert (Hm : p_main y' = MReturned).
    { cbn [process_step] in Ea. destruct (p_main y); try done. by injection Ea as <-. }
    clear Ea. revert y' Hm Hr. induction evs2 as [|ev evs2 IH]; intros y' Hm Hr Hn; cbn in Hr.
    + injection Hr as <-. cbn. by rewrite Hm.
    + apply not_elem_of_cons in Hn as [Hne Hn].
      destruct (process_step e y' ev) as [y2|] eqn:E; [|done]. eapply IH; [|done|done].
      destruct ev as [ok| | | |ev|]; cbn [process_step] in E; rewrite ?Hm in E; try done.
      destruct ev; try done; destruct (server_event _ _ _); try done; by injection E as <-.
Qed.

(** Until the process ends, its connections live as in [Server]. *)
Lemma c79_serves e evs x :
  process_after e evs x -> PShutdown ∉ evs ->
  server_run e (on_connections evs) ([], store_new) = Some (p_server x).
Proof.
  unfold process_after. assert (H : forall evs x0, process_run e evs x0 = Some x -> PShutdown ∉ evs ->
    server_run e (on_connections evs) (p_server x0) = Some (p_server x)).
  { clear. induction evs as [|ev evs IH]; intros x0 Hr Hn; cbn in Hr.
    - by injection Hr as <-.
    - apply not_elem_of_cons in Hn as [Hne Hn].
      destruct (process_step e x0 ev) as [x1|] eqn:E; [|done]. specialize (IH _ Hr Hn).
      destruct ev as [ok| | | |ev|]; cbn [process_step] in E; try done.
      + destruct (p_main x0); try done. by injection E as <-.
      + destruct (p_main x0); try done.
        change (on_connections (PAccept :: evs)) with (EConnect :: on_connections evs).
        cbn [server_run]. destruct (server_event e (p_server x0) EConnect) as [s|]; [|done].
        by injection E as <-.
      + destruct (p_main x0); try done. by injection E as <-.
      + destruct (p_main x0); try done. by injection E as <-.
      + change (on_connections (PTask ev :: evs)) with (ev :: on_connections evs).
        cbn [server_run]. destruct ev; try done; destruct (p_main x0); try done;
          destruct (server_event _ _ _); try done; by injection E as <-. }
  intros Hr Hn. exact (H _ _ Hr Hn).
Qed.

Lemma process_ran e evs :
  match process_run e evs process_new with Some _ => true | None => false end = true ->
  exists x, process_after e evs x.
Proof. unfold process_after. destruct (process_run e evs process_new); [eauto|done]. Qed.
