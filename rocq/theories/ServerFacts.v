(** Lemmas about the server. *)
From Verif Require Import Bytes BytesFacts Value CommandId Request ReqContext Response Metrics Prog
  Commands EngineSpec WireSpec RequestSpec RequestFacts ParserSpec IdsFacts ReqContextFacts
  ReqParserProps ResponseFacts HistorySpec ProgFacts CommandFacts EngineFacts EngineProps Server
  ServerSpec.
From stdpp Require Import gmap list.
From Coq Require Import NArith ZArith Lia.
From Coq Require Import ZifyBool ZifyNat ZifyN.

(** ** Cutting *)

Lemma messages_app p a b :
  messages p (a ++ b) =
  let '(ms1, t1) := messages p a in let '(ms2, t2) := messages t1 b in (ms1 ++ ms2, t2).
Proof.
  revert p. induction a as [|x a IH]; intros p; cbn.
  - by destruct (messages p b).
  - destruct (_ && _).
    + rewrite IH. destruct (messages [] a) as [ms1 t1]. by destruct (messages t1 b).
    + by rewrite IH.
Qed.

Lemma newline_10 b : (b2n b =? 10)%N = true -> b = newline.
Proof. intros H. apply b2n_inj. unfold newline. rewrite b2n_n2b_small; [lia|done]. Qed.

Lemma b2n_newline : b2n newline = 10%N.
Proof. reflexivity. Qed.

Lemma messages_quiet p bs : newline ∉ bs -> messages p bs = ([], p ++ bs).
Proof.
  revert p. induction bs as [|b bs IH]; intros p Hn; cbn; [by rewrite app_nil_r|].
  apply not_elem_of_cons in Hn as [Hb Hn].
  destruct (b2n b =? 10)%N eqn:E; [by apply newline_10 in E; subst|].
  cbn. rewrite IH by done. by rewrite <-app_assoc.
Qed.

Lemma cut_line_some bs l rest : cut_line bs = Some (l, rest) ->
  bs = l ++ rest /\ exists l0, l = l0 ++ [newline] /\ newline ∉ l0.
Proof.
  revert l. induction bs as [|b bs IH]; intros l; cbn; [done|].
  destruct (b2n b =? 10)%N eqn:E.
  - intros [= <- <-]. apply newline_10 in E as ->. split; [done|]. exists [].
    split; [done|]. apply not_elem_of_nil.
  - destruct (cut_line bs) as [[l1 r1]|] eqn:Ec; [|done]. intros [= <- <-].
    destruct (IH _ eq_refl) as (-> & l0 & -> & Hn). split; [done|]. exists (b :: l0). split; [done|].
    apply not_elem_of_cons. split; [|done]. intros <-. done.
Qed.

Lemma cut_line_none bs : cut_line bs = None -> newline ∉ bs.
Proof.
  induction bs as [|b bs IH]; cbn; intros H; [apply not_elem_of_nil|].
  destruct (b2n b =? 10)%N eqn:E; [done|]. destruct (cut_line bs) as [[]|]; [done|].
  apply not_elem_of_cons. split; [|by apply IH]. intros <-. done.
Qed.

Lemma messages_line p l0 : newline ∉ l0 ->
  messages p (l0 ++ [newline]) =
  if conclusive (p ++ l0 ++ [newline]) then ([p ++ l0 ++ [newline]], []) else ([], p ++ l0 ++ [newline]).
Proof.
  intros H. rewrite messages_app, messages_quiet by done. cbn [messages].
  rewrite b2n_newline. cbn [N.eqb Pos.eqb andb]. rewrite <-app_assoc.
  by destruct (conclusive _).
Qed.

Lemma ends_line_snoc bs : ends_line (bs ++ [newline]) = true.
Proof. unfold ends_line. by rewrite last_snoc. Qed.

Lemma ends_line_app bs l : l <> [] -> newline ∉ l -> ends_line (bs ++ l) = false.
Proof.
  intros Hl Hn. destruct l as [|x l _] using rev_ind; [done|]. unfold ends_line.
  rewrite app_assoc, last_snoc. destruct (b2n x =? 10)%N eqn:E; [|done].
  apply newline_10 in E as ->. destruct Hn. apply elem_of_app. right. by apply elem_of_list_here.
Qed.

(** ** One connection *)

(** [x] is where a new parser is after [b]. *)
Definition resumes (x : req_ctx) (b : bytes) : Prop :=
  forall s, req_feed x (b ++ s) = req_feed req_ctx_new (b ++ s).

Lemma resumes_new b : resumes req_ctx_new b.
Proof. done. Qed.

Lemma resumes_app x b l : resumes x b -> resumes x (b ++ l).
Proof. intros H s. by rewrite <-app_assoc, H. Qed.

Lemma resumes_feed x b : resumes x b -> req_feed x b = req_feed req_ctx_new b.
Proof. intros H. specialize (H []). by rewrite !app_nil_r in H. Qed.

Section conn.
  Context (e : env).
  (** What is known after some answered messages, and while answering one. *)
  Context (A : list bytes -> bytes -> store -> Prop).
  Context (B : list bytes -> bytes -> prog -> bytes -> store -> Prop).
  (** What the steps need of the state. *)
  Context (R : store -> Prop).
  Context (HAerr : forall ms m err sent s, A ms sent s ->
    (req_feed req_ctx_new m).2 = FError err ->
    A (ms ++ [m]) (sent ++ write_parse_error [] err) s).
  Context (HBstart : forall ms m req sent s, A ms sent s ->
    (req_feed req_ctx_new m).2 = FRequest req -> B ms m (dispatch_prog e req []) sent s).
  Context (HBstep : forall ms m p sent s p' s', R s -> B ms m p sent s ->
    pstep p s = Some (p', s') -> B ms m p' sent s').
  Context (HBok : forall ms m b sent s, B ms m (PRet (COk b)) sent s -> A (ms ++ [m]) (sent ++ b) s).
  Context (HBerr : forall ms m err b sent s, B ms m (PRet (CErr err b)) sent s ->
    A (ms ++ [m]) (sent ++ write_dispatch_error b err) s).

  (** The messages in the bytes [P]; [fin]: the last one was ended by the closing. *)
  Definition spent (P : bytes) (fin : bool) (ms : list bytes) (pend : bytes) : Prop :=
    if fin then exists ms0 t, messages [] P = (ms0, t) /\ ends_line t = false /\
      conclusive t = true /\ ms = ms0 ++ [t] /\ pend = []
    else messages [] P = (ms, pend).

  Definition conn_inv (failed : bool) (D : bytes) (c : conn) (s : store) : Prop :=
    exists P fin ms,
      D = P ++ k_unread c /\ (fin = true -> k_unread c = [] /\ k_eof c = true) /\
      match k_task c with
      | TReading =>
        A ms (k_sent c) s /\ spent P fin ms (k_input c) /\ resumes (k_ctx c) (k_input c) /\
        (k_size c = 0%N -> ends_line (k_input c) = true \/
           (k_eof c = true /\ k_unread c = [] /\ conclusive (k_input c) = false)) /\
        (k_size c <> 0%N -> fin = false /\ ends_line (k_input c) = false)
      | TServing p =>
        B ms (k_input c) p (k_sent c) s /\ spent P fin (ms ++ [k_input c]) [] /\
        k_ctx c = req_ctx_new
      | TCrashed =>
        spent P fin (ms ++ [k_input c]) [] /\
        ((A ms (k_sent c) s /\ (req_feed req_ctx_new (k_input c)).2 = FPanic) \/
         B ms (k_input c) (PRet CPanic) (k_sent c) s)
      | TClosed =>
        A ms (k_sent c) s /\ exists more pend, spent P fin (ms ++ more) pend /\
        (failed = true \/
         (more = [] /\ k_eof c = true /\ k_unread c = [] /\
          (ends_line pend = true \/ conclusive pend = false)))
      end.

  Lemma handle_inv failed D P fin ms unread eof input x sent s :
    D = P ++ unread -> (fin = true -> unread = [] /\ eof = true) ->
    A ms sent s -> resumes x input ->
    (if conclusive input then spent P fin (ms ++ [input]) [] else fin = false /\ spent P fin ms input) ->
    (ends_line input = true \/ (eof = true /\ unread = [])) ->
    conn_inv failed D (handle e unread eof input x sent) s.
  Proof.
    intros HD Hfin HA Hx Hsp Hend. unfold handle. rewrite (resumes_feed _ _ Hx).
    pose proof (req_feed_no_fuel req_ctx_new input) as Hf.
    assert (Hre : match req_feed req_ctx_new input with
      | (x', FRequest _) | (x', FError _) => x' = req_ctx_new | _ => True end).
    { apply feed_restarts. by exists []. }
    unfold conclusive in Hsp.
    destruct (req_feed req_ctx_new input) as [x' r] eqn:E. cbn [snd] in *.
    destruct r as [|req|err| |]; try done; exists P, fin; cbn.
    - destruct Hsp as [-> Hsp]. exists ms. split; [done|]. split; [done|]. split; [done|].
      split; [done|]. split.
      + intros t. by rewrite (feed_grow_more _ _ t _ E).
      + split; [|done]. intros _. destruct Hend as [?|[-> ->]]; [by left|]. right.
        split; [done|]. split; [done|]. unfold conclusive. by rewrite E.
    - exists ms. split; [done|]. split; [done|]. split; [|done]. apply HBstart; [done|]. by rewrite E.
    - exists (ms ++ [input]). split; [done|]. split; [done|]. split.
      { apply HAerr; [done|]. by rewrite E. }
      split; [done|]. subst x'. split; [done|]. split; [|done]. by left.
    - exists ms. split; [done|]. split; [done|]. split; [done|]. left. by rewrite E.
  Qed.

  Lemma conn_step_inv failed D c s c' s' : R s ->
    conn_inv failed D c s -> conn_step e c s = Some (c', s') -> conn_inv failed D c' s'.
  Proof.
    destruct c as [unread eof size input x sent task]. unfold conn_step.
    cbn [k_unread k_eof k_size k_input k_ctx k_sent k_task].
    intros Hroom (P & fin & ms & HD & Hfin & Hinv) Hs. cbn in HD, Hfin, Hinv. revert Hs.
    destruct task as [|p| |]; [| |done|done].
    - destruct Hinv as (HA & Hsp & Hx & Hsz & Hnz).
      destruct (cut_line unread) as [[l rest]|] eqn:Ec.
      + intros [= <- <-]. apply cut_line_some in Ec as (-> & l0 & -> & Hn).
        destruct fin.
        { destruct Hfin as [Hf _]; [done|]. destruct l0; done. }
        cbn in Hsp.
        apply (handle_inv failed D (P ++ l0 ++ [newline]) false ms); try done.
        * rewrite HD. by rewrite <-!app_assoc.
        * by apply resumes_app.
        * cbn. rewrite messages_app, Hsp, messages_line by done.
          destruct (conclusive (input ++ l0 ++ [newline])); [done|]. by rewrite app_nil_r.
        * left. rewrite app_assoc. apply ends_line_snoc.
      + apply cut_line_none in Ec. destruct unread as [|b bs].
        * destruct eof; [|done]. destruct (size =? 0)%N eqn:Ez.
          { intros [= <- <-]. exists P, fin, ms. cbn. split; [done|]. split; [done|].
            split; [done|]. exists [], input. rewrite app_nil_r. split; [done|]. right.
            split; [done|]. split; [done|]. split; [done|].
            destruct (Hsz ltac:(lia)) as [?|(_ & _ & ?)]; auto. }
          intros [= <- <-]. destruct (Hnz ltac:(lia)) as [-> Hel]. cbn in Hsp.
          destruct (conclusive input) eqn:Eco.
          { apply (handle_inv failed D P true ms); try done; [|by right]. rewrite Eco. cbn. eauto 10. }
          apply (handle_inv failed D P false ms); try done; [|by right]. by rewrite Eco.
        * intros [= <- <-].
          destruct fin; [by destruct Hfin|]. cbn in Hsp.
          exists (P ++ b :: bs), false, ms. cbn. split; [by rewrite app_nil_r|]. split; [done|].
          split; [done|]. split; [|split; [by apply resumes_app|split]].
          { rewrite messages_app, Hsp, messages_quiet by done. by rewrite app_nil_r. }
          { intros Hz. exfalso. rewrite lenN_cons in Hz. lia. }
          { intros _. split; [done|]. by apply ends_line_app. }
    - destruct Hinv as (HB & Hsp & ->).
      assert (Hrun : forall p' s1, pstep p s = Some (p', s1) ->
        conn_inv failed D (Conn unread eof size input req_ctx_new sent (TServing p')) s1).
      { intros p' s1 Hp. exists P, fin, ms. cbn. split; [done|]. split; [done|].
        split; [by eapply HBstep|done]. }
      destruct p as [r| | | | | | | |].
      { intros [= <- <-]. destruct r as [b|err b|]; unfold answer; cbn.
        - exists P, fin, (ms ++ [input]). cbn. split; [done|]. split; [done|].
          split; [by apply HBok|]. split; [done|]. split; [done|]. split; [|done]. by left.
        - exists P, fin, (ms ++ [input]). cbn. split; [done|]. split; [done|].
          split; [by apply HBerr|]. split; [done|]. split; [done|]. split; [|done]. by left.
        - exists P, fin, ms. cbn. split; [done|]. split; [done|]. split; [done|]. by right. }
      all: match goal with |- context [pstep ?q ?s] => destruct (pstep q s) as [[p' s1]|] eqn:Hp end;
        [|done]; intros [= <- <-]; by apply Hrun.
  Qed.

  Lemma conn_new_inv s : A [] [] s -> conn_inv false [] conn_new s.
  Proof.
    intros HA. exists [], false, []. cbn. split; [done|]. split; [done|]. split; [done|].
    split; [done|]. split; [done|]. split; [|done]. by left.
  Qed.

  Lemma conn_deliver_inv failed D c s bs : k_eof c = false -> conn_inv failed D c s ->
    conn_inv failed (D ++ bs) (Conn (k_unread c ++ bs) false (k_size c) (k_input c) (k_ctx c)
      (k_sent c) (k_task c)) s.
  Proof.
    destruct c as [unread eof size input x sent task]. cbn.
    intros -> (P & fin & ms & HD & Hfin & Hinv). cbn in HD, Hfin, Hinv.
    destruct fin; [by destruct Hfin|].
    exists P, false, ms. cbn. split; [rewrite HD; by rewrite app_assoc|]. split; [done|].
    destruct task as [|p| |]; try done.
    - destruct Hinv as (HA & Hsp & Hx & Hsz & Hnz). split; [done|]. split; [done|]. split; [done|].
      split; [|done]. intros Hz. left. by destruct (Hsz Hz) as [?|(? & _)].
    - destruct Hinv as (HA & more & pend & Hsp & [?|(_ & ? & _)]); [|done]. eauto 10.
  Qed.

  Lemma conn_end_inv failed D c s : conn_inv failed D c s ->
    conn_inv failed D (Conn (k_unread c) true (k_size c) (k_input c) (k_ctx c) (k_sent c) (k_task c)) s.
  Proof.
    destruct c as [unread eof size input x sent task]. cbn.
    intros (P & fin & ms & HD & Hfin & Hinv). cbn in HD, Hfin, Hinv.
    exists P, fin, ms. cbn. split; [done|]. split; [intros H; split; [by apply Hfin|done]|].
    destruct task as [|p| |]; try done.
    - destruct Hinv as (HA & Hsp & Hx & Hsz & Hnz). split; [done|]. split; [done|]. split; [done|].
      split; [|done]. intros Hz. destruct (Hsz Hz) as [?|(_ & ? & ?)]; auto.
    - destruct Hinv as (HA & more & pend & Hsp & [?|(? & _ & ? & ?)]); eauto 12.
  Qed.

  Lemma conn_fail_inv failed D c s : conn_inv failed D c s ->
    match k_task c with TReading | TServing _ => True | _ => False end ->
    (forall ms m p, k_task c = TServing p -> B ms m p (k_sent c) s -> A ms (k_sent c) s) ->
    conn_inv true D (Conn (k_unread c) (k_eof c) (k_size c) (k_input c) (k_ctx c) (k_sent c) TClosed) s.
  Proof.
    destruct c as [unread eof size input x sent task]. cbn.
    intros (P & fin & ms & HD & Hfin & Hinv) Ht HBA. cbn in HD, Hfin, Hinv.
    exists P, fin, ms. cbn. split; [done|]. split; [done|].
    destruct task as [|p| |]; try done.
    - destruct Hinv as (HA & Hsp & _). split; [done|]. exists [], input. rewrite app_nil_r. auto.
    - destruct Hinv as (HB & Hsp & _). split; [by eapply HBA|]. eauto 10.
  Qed.

  Lemma spent_cut P fin ms pend unread eof :
    spent P fin ms pend -> (fin = true -> unread = [] /\ eof = true) ->
    exists rest, cut eof (P ++ unread) = ms ++ rest /\
      (unread = [] -> fin = true \/ eof = false \/ ends_line pend = true \/ conclusive pend = false ->
       rest = []).
  Proof.
    unfold cut. destruct fin; cbn; intros Hsp Hfin.
    - destruct Hsp as (ms0 & t & Hm & He & Hc & -> & ->). destruct Hfin as [-> ->]; [done|].
      rewrite app_nil_r, Hm, He, Hc. cbn. exists []. by rewrite app_nil_r.
    - rewrite messages_app, Hsp. destruct (messages pend unread) as [ms2 t] eqn:E.
      exists (ms2 ++ (if eof && negb (ends_line t) && conclusive t then [t] else [])).
      split; [by rewrite app_assoc|]. intros ->. cbn in E. injection E as <- <-. cbn.
      destruct eof; cbn; [|done]. intros [?|[?|[H|H]]]; [done|done| |].
      + by rewrite H.
      + by rewrite H, andb_false_r.
  Qed.

  Lemma conn_inv_cut failed D c s : conn_inv failed D c s ->
    exists done rest,
      cut (k_eof c) D = done ++ rest /\
      match k_task c with
      | TServing p => exists m rest', rest = m :: rest' /\ B done m p (k_sent c) s
      | TCrashed => exists m rest', rest = m :: rest' /\
        ((A done (k_sent c) s /\ (req_feed req_ctx_new m).2 = FPanic) \/
         B done m (PRet CPanic) (k_sent c) s)
      | TReading => A done (k_sent c) s /\ (conn_step e c s = None -> rest = [])
      | TClosed => A done (k_sent c) s /\ (failed = false -> rest = [])
      end.
  Proof.
    destruct c as [unread eof size input x sent task].
    intros (P & fin & ms & HD & Hfin & Hinv). cbn in HD, Hfin, Hinv |- *. subst D.
    destruct task as [|p| |].
    - destruct Hinv as (HA & Hsp & Hx & Hsz & Hnz).
      destruct (spent_cut _ _ _ _ unread eof Hsp Hfin) as (rest & Hc & Hrest).
      exists ms, rest. split; [done|]. split; [done|]. unfold conn_step. cbn.
      destruct (cut_line unread) as [[]|]; [done|]. destruct unread; [|done].
      destruct eof; [by destruct (size =? 0)%N|]. intros _. apply Hrest; auto.
    - destruct Hinv as (HB & Hsp & _).
      destruct (spent_cut _ _ _ _ unread eof Hsp Hfin) as (rest & Hc & _).
      exists ms, (input :: rest). split; [by rewrite Hc, <-app_assoc|]. eauto.
    - destruct Hinv as (HA & more & pend & Hsp & Hor).
      destruct (spent_cut _ _ _ _ unread eof Hsp Hfin) as (rest & Hc & Hrest).
      exists ms, (more ++ rest). split; [by rewrite Hc, <-app_assoc|]. split; [done|]. intros ->.
      destruct Hor as [?|(-> & -> & -> & Hor)]; [done|]. apply Hrest; [done|]. tauto.
    - destruct Hinv as (Hsp & Hor).
      destruct (spent_cut _ _ _ _ unread eof Hsp Hfin) as (rest & Hc & _).
      exists ms, (input :: rest). split; [by rewrite Hc, <-app_assoc|]. eauto.
  Qed.
End conn.
