(** Proofs about requests on any backend: the vocabulary is in [AnySpec]. *)
From Coq Require Import String.
From Verif Require Import Bytes Float64 Value Metrics Prog Commands HistorySpec Client ClientSpec Futures
  FutureFacts Fluent FluentSpec FluentFacts AnyBackend AnySpec.
From stdpp Require Import gmap list.
From Coq Require Import NArith ZArith Lia.

Lemma trait_call_eq c : trait_call c = passed_on c.
Proof. by destruct c as [| | | | | | | | | | | | | | | | | | |? []|? []|? []|? []]. Qed.

Definition block_fits {F} (polled : bool) (b : option (ablock F)) (fl : option (client_call * F)) : Prop :=
  if polled then
    match fl with
    | Some (c, f) => b = Some (BWaits c f)
    | None => b = Some BOver \/ b = Some BPoisoned
    end
  else b = None /\ fl = None.

Lemma drop_fits {W F E} (B : backend W F E) polled b (fl : gmap nat (client_call * F)) i w (x : view E) :
  block_fits polled b (fl !! i) ->
  forgotten B i w fl x = (drop_block B w b, delete i fl, x).
Proof.
  unfold block_fits, forgotten, drop_block. intros H.
  destruct polled, (fl !! i) as [[c f]|] eqn:E'; try (destruct H; congruence).
  - by subst b.
  - rewrite (delete_notin _ _ E'). by destruct H as [-> | ->].
  - destruct H as [-> _]. by rewrite (delete_notin _ _ E').
Qed.

Lemma await_is {W F E} (B : backend W F E) e w c f i (fl : gmap nat (client_call * F)) :
  exists w1 b x, await B e w c f = (w1, b, x) /\
    answered i c fl (b_poll B e w f) = (w1, match b with BWaits c f => <[i:=(c,f)]> fl | _ => delete i fl end, x) /\
    match b with BFresh _ => False | BWaits c' _ => c' = c | _ => True end.
Proof.
  unfold await, answered, seen_of. destruct (b_poll B e w f) as [w1 [f1|[r|err]|]]; cbn;
    try (by eexists _, _, _).
  assert (H : opened c r = match r, wanted_kind c with
     | RpValue v, Some t => if decide (kind v = t) then Some r else None | _, _ => Some r end).
  { destruct c, r; try done; cbn; unfold of_kind; by destruct (decide _). }
  rewrite H. destruct r as [v| | | | | |], (wanted_kind c) as [t0|]; cbn;
    try destruct (decide (kind v = t0)); by eexists _, _, _.
Qed.

Lemma poll_is {W F E} (B : backend W F E) e w ty q b i c h (fl : gmap nat (client_call * F)) :
  block_fits (was_polled i h) b (fl !! i) ->
  (if was_polled i h then spent q else q = request_new c) ->
  chain h i = Asks c ->
  exists w1 q' b' fl' x,
    poll_held B e w ty q b = (w1, Held (OFuture ty q') (Some b'), x) /\
    happens B h (FPoll e i) w fl = (w1, fl', x) /\
    spent q' /\ block_fits true (Some b') (fl' !! i) /\ (forall k, k <> i -> fl' !! k = fl !! k).
Proof.
  intros Hb Hq Hch. cbn [happens].
  assert (Haw : forall w c f q0, spent q0 -> exists w1 q' b' fl' x,
    (let '(w1, b, x) := await B e w c f in (w1, Held (OFuture ty q0) (Some b), x))
      = (w1, Held (OFuture ty q') (Some b'), x) /\
    answered i c fl (b_poll B e w f) = (w1, fl', x) /\
    spent q' /\ block_fits true (Some b') (fl' !! i) /\ (forall k, k <> i -> fl' !! k = fl !! k)).
  { intros w0 c0 f0 q0 Hq0. destruct (await_is B e w0 c0 f0 i fl) as (w1 & b1 & x & -> & -> & Hb1).
    eexists _, _, _, _, _. split; [done|]. split; [done|]. split; [done|]. destruct b1; cbn; try done.
    - subst. rewrite lookup_insert. split; [done|]. intros. by rewrite lookup_insert_ne.
    - rewrite lookup_delete. split; [by left|]. intros. by rewrite lookup_delete_ne.
    - rewrite lookup_delete. split; [by right|]. intros. by rewrite lookup_delete_ne. }
  unfold block_fits in Hb. destruct (was_polled i h) eqn:Hp.
  - destruct (fl !! i) as [[c0 f0]|] eqn:Hf.
    + subst b. cbn [poll_held resume_block]. by apply Haw.
    + destruct Hb as [-> | ->]; cbn; eexists _, _, _, _, _; (split; [done|]); (split; [done|]);
        (split; [done|]); cbn; rewrite Hf; split; by auto.
  - destruct Hb as [-> Hf]. subst q. rewrite Hf, Hch. cbn [poll_held request_new rq_args resume_block].
    rewrite trait_call_eq. destruct (b_begin B w (passed_on c)) as [w0 [f|]].
    + apply Haw. by left.
    + eexists _, _, _, _, _. split; [done|]. split; [done|]. split; [by left|]. cbn. rewrite Hf. by auto.
Qed.

Record any_ok {W F E} (h : list event) (p : anyprog W F E) (g : progress W F E) : Prop := AnyOk {
  ao_past : pg_past g = h;
  ao_world : ap_world p = pg_world g;
  ao_len : length (ap_held p) = length (started h);
  ao_slot : forall i n, started h !! i = Some n -> ~ gone h i ->
    exists o b, ap_held p !! i = Some (Some (Held o b)) /\ fits n (methods_of h i) (was_polled i h) o /\
      block_fits (was_polled i h) b (pg_flight g !! i);
  ao_none : forall i, gone h i \/ (length (started h) <= i)%nat -> pg_flight g !! i = None;
  ao_seen : ap_seen p = pg_seen g }.

Lemma fits_asks n ms polled o c :
  fits n ms polled o -> asks n ms = Asks c ->
  exists ty q, o = OFuture ty q /\ if polled then spent q else q = request_new c.
Proof. unfold fits. intros H Ha. rewrite Ha in H. destruct H as (q & -> & H). by eexists _, _. Qed.

Lemma any_ok_all {W F E} (B : backend W F E) h (w : W) :
  compiles h -> any_ok h (any_run B h w) (progresses B h w).
Proof.
  induction h as [|ev h IH] using rev_ind; intros Hc.
  { split; cbn; try done. }
  pose proof (IH (compiles_app _ _ Hc)) as [Hpast Hw Hn Hslot Hnone Hseen].
  pose proof (compiles_last _ _ Hc) as Hl.
  unfold any_run, progresses. rewrite !fold_left_app. fold (any_run B h w) (progresses B h w). cbn [fold_left].
  destruct (any_run B h w) as [w0 os out], (progresses B h w) as [h0 w0' fl out'].
  cbn in Hpast, Hw, Hn, Hslot, Hnone, Hseen. subst h0 w0' out'. cbn [go_on].
  destruct ev as [n|i m|e i|i]; cbn [any_step].
  - (* start *)
    cbn [happens]. split; cbn [ap_world ap_held ap_seen pg_past pg_world pg_flight pg_seen]; try done.
    + rewrite started_snoc, !app_length. cbn. lia.
    + intros i n' Hi Hg. rewrite methods_snoc, app_nil_r, was_polled_snoc, orb_false_r.
      rewrite started_snoc in Hi. apply lookup_app_Some in Hi as [Hi|[Hge Hi]].
      * destruct (Hslot i n' Hi) as (o & b & Ho & Hf & Hb).
        { intros Hg'. apply Hg, gone_snoc. by left. }
        exists o, b. split; [|done]. by apply lookup_app_l_Some.
      * apply list_lookup_singleton_Some in Hi as [H1 <-].
        exists (start n), None. split.
        { rewrite lookup_app_r by lia. replace (i - length os)%nat with 0%nat by lia. done. }
        destruct (not_started h i) as [-> ->]; [by eapply compiles_app|lia|]. split; [apply fits_start|].
        split; [done|]. apply Hnone. right. lia.
    + intros i [Hg|Hge]; apply Hnone.
      * apply gone_snoc in Hg as [Hg|Hg]; [by left|done].
      * right. rewrite started_snoc, app_length in Hge. lia.
  - (* a method *)
    destruct Hl as [Hng Hne]. pose proof Hne as Hne'. apply chain_started in Hne' as [n Hn'].
    rewrite started_snoc, app_nil_r in Hn'.
    destruct (Hslot i n Hn' Hng) as (o & b & Ho & Hf & Hb). rewrite Ho.
    assert (Hchain : chain (h ++ [FCall i m]) i = asks n (methods_of h i ++ [m])).
    { unfold chain. rewrite started_snoc, app_nil_r, Hn', methods_snoc, Nat.eqb_refl. done. }
    pose proof (call_fits n (methods_of h i) (was_polled i h) o m Hf) as Hcall.
    rewrite Hchain in Hne. specialize (Hcall Hne).
    assert (Hst : forall (w1 : W) (x : view E) (os' : list (option (held F))) (fl' : gmap nat (client_call * F)), length os' = length os ->
      (~ gone (h ++ [FCall i m]) i -> exists o b, os' !! i = Some (Some (Held o b)) /\
         fits n (methods_of h i ++ [m]) (was_polled i h) o /\ block_fits (was_polled i h) b (fl' !! i)) ->
      (gone (h ++ [FCall i m]) i -> fl' !! i = None) ->
      (forall k, k <> i -> os' !! k = os !! k) ->
      (forall k, k <> i -> fl' !! k = fl !! k) ->
      any_ok (h ++ [FCall i m]) (AnyProg w1 os' (out ++ [x])) (Progress (h ++ [FCall i m]) w1 fl' (out ++ [x]))).
    { intros w1 x os' fl' Hlo Hi Hgi Hk Hk'.
      split; cbn [ap_world ap_held ap_seen pg_past pg_world pg_flight pg_seen]; try done.
      - rewrite started_snoc, app_nil_r. lia.
      - intros k n' Hs' Hg. destruct (decide (k = i)) as [->|Hki].
        + rewrite started_snoc, app_nil_r, Hn' in Hs'. injection Hs' as <-.
          rewrite methods_snoc, Nat.eqb_refl, was_polled_snoc, orb_false_r. by apply Hi.
        + rewrite Hk, Hk' by done. rewrite started_snoc, app_nil_r in Hs'.
          rewrite methods_snoc, was_polled_snoc, orb_false_r.
          replace (k =? i)%nat with false by (symmetry; by apply Nat.eqb_neq).
          rewrite app_nil_r. apply Hslot; [done|]. intros Hg'. apply Hg, gone_snoc. by left.
      - intros k Hg. destruct (decide (k = i)) as [->|Hki].
        + destruct Hg as [Hg|Hg]; [by apply Hgi|]. rewrite started_snoc, app_nil_r in Hg.
          apply lookup_lt_Some in Hn'. lia.
        + rewrite Hk' by done. apply Hnone. rewrite started_snoc, app_nil_r in Hg.
          destruct Hg as [Hg|Hg]; [|by right]. apply gone_snoc in Hg as [Hg|Hg]; [by left|].
          cbn in Hg. by destruct Hg. }
    assert (Hlt : (i < length os)%nat) by (by eapply lookup_lt_Some).
    assert (Hend : ends_with h (FCall i m) i -> gone (h ++ [FCall i m]) i).
    { intros. apply gone_snoc. by right. }
    cbn [happens]. rewrite Hn', Hchain.
    destruct (asks n (methods_of h i ++ [m])) as [|c|err|] eqn:Ea; try done.
    1,2: destruct (turns n m && was_polled i h) eqn:Et;
      [ rewrite Hcall; rewrite (drop_fits _ _ _ _ _ _ _ Hb);
        apply Hst; [by rewrite insert_length| |intros; apply lookup_delete
                   |intros; by rewrite list_lookup_insert_ne|intros; by rewrite lookup_delete_ne];
        intros []; apply Hend; cbn; split; [done|]; left; exists n;
        by apply andb_true_iff in Et as [-> ->]
      | destruct Hcall as (o' & -> & Hf'); apply Hst;
        [by rewrite insert_length| | |intros; by rewrite list_lookup_insert_ne|done] ].
    1,3: intros _; exists o', b; by rewrite list_lookup_insert.
    1,2: intros Hg; apply gone_snoc in Hg as [Hg|Hg]; [done|]; cbn in Hg;
      destruct Hg as [_ [(n0 & Hn0 & Ht & Hp)|[err Herr]]]; [|congruence];
      rewrite Hn' in Hn0; injection Hn0 as <-; rewrite Ht, Hp in Et; done.
    destruct Hcall as [-> Hp]. rewrite Hp in Hb. destruct Hb as [-> Hb]. cbn [drop_block]. apply Hst;
      [by rewrite insert_length| |done|intros; by rewrite list_lookup_insert_ne|done].
    intros []. apply Hend. cbn. split; [done|]. right. exists err. by rewrite Hchain.
  - (* poll *)
    destruct Hl as (Hng & c & Hch). assert (chain h i <> Ill) as [n Hn']%chain_started by by rewrite Hch.
    destruct (Hslot i n Hn' Hng) as (o & b & Ho & Hf & Hb). rewrite Ho.
    pose proof Hch as Hch'. unfold chain in Hch. rewrite Hn' in Hch.
    pose proof Hf as Hf0. unfold fits in Hf0. rewrite Hch in Hf0. destruct Hf0 as (q & -> & Hq).
    destruct (poll_is B e w0 (type_of c) q b i c h fl Hb Hq Hch') as (w1 & q' & b' & fl' & x & -> & -> & Hsp & Hb' & Hk).
    assert (Hlt : (i < length os)%nat) by (by eapply lookup_lt_Some).
    split; cbn [ap_world ap_held ap_seen pg_past pg_world pg_flight pg_seen]; try done.
    + by rewrite started_snoc, app_nil_r, insert_length.
    + intros k n' Hs' Hg. rewrite started_snoc, app_nil_r in Hs'.
      rewrite methods_snoc, app_nil_r, was_polled_snoc.
      destruct (decide (k = i)) as [->|Hki].
      * rewrite Hn' in Hs'. injection Hs' as <-. rewrite Nat.eqb_refl, orb_true_r.
        rewrite list_lookup_insert by done. eexists _, _. split; [done|]. split; [|done].
        unfold fits. rewrite Hch. by eexists.
      * replace (k =? i)%nat with false by (symmetry; by apply Nat.eqb_neq).
        rewrite orb_false_r, list_lookup_insert_ne, Hk by done. apply Hslot; [done|].
        intros Hg'. apply Hg, gone_snoc. by left.
    + intros k Hg. rewrite started_snoc, app_nil_r in Hg.
      assert (Hg' : gone h k \/ (length (started h) <= k)%nat).
      { destruct Hg as [Hg|Hg]; [|by right]. by apply gone_snoc in Hg as [Hg|Hg]; [left|]. }
      assert (k <> i).
      { intros ->. destruct Hg' as [Hg'|Hg']; [done|]. apply lookup_lt_Some in Hn'. lia. }
      rewrite Hk by done. by apply Hnone.
  - (* drop *)
    destruct Hl as [Hi Hng]. apply lookup_lt_is_Some in Hi as [n Hn'].
    destruct (Hslot i n Hn' Hng) as (o & b & Ho & Hf & Hb). rewrite Ho. cbn [hd_block happens].
    rewrite (drop_fits _ _ _ _ _ _ _ Hb).
    split; cbn [ap_world ap_held ap_seen pg_past pg_world pg_flight pg_seen]; try done.
    + by rewrite started_snoc, app_nil_r, insert_length.
    + intros k n' Hs' Hg. rewrite started_snoc, app_nil_r in Hs'.
      rewrite methods_snoc, app_nil_r, was_polled_snoc, orb_false_r.
      assert (k <> i).
      { intros ->. apply Hg, gone_snoc. by right. }
      rewrite list_lookup_insert_ne, lookup_delete_ne by done. apply Hslot; [done|].
      intros Hg'. apply Hg, gone_snoc. by left.
    + intros k Hg. rewrite started_snoc, app_nil_r in Hg. destruct (decide (k = i)) as [->|Hki].
      * apply lookup_delete.
      * rewrite lookup_delete_ne by done. apply Hnone. destruct Hg as [Hg|Hg]; [|by right].
        apply gone_snoc in Hg as [Hg|Hg]; [by left|]. cbn in Hg. by subst.
Qed.

Lemma c103 (W F E : Type) (B : backend W F E) (h : list event) (w : W) :
  compiles h ->
  ap_world (any_run B h w) = pg_world (progresses B h w) /\
  ap_seen (any_run B h w) = pg_seen (progresses B h w).
Proof. intros H. by destruct (any_ok_all B h w H). Qed.

(** ** The log does not interfere *)

Definition strip_block {F} (b : ablock (nat * F)) : ablock F :=
  match b with BFresh c => BFresh c | BWaits c f => BWaits c f.2 | BOver => BOver | BPoisoned => BPoisoned end.
Definition strip {F} (x : held (nat * F)) : held F := Held (hd_object x) (strip_block <$> hd_block x).

Record same_but_log {W F E} (p : anyprog W F E) (p' : anyprog (W * list (nat * deed E)) (nat * F) E)
  : Prop := SameButLog {
  sl_world : (ap_world p').1 = ap_world p;
  sl_held : ap_held p = map (option_map strip) (ap_held p');
  sl_seen : ap_seen p' = ap_seen p }.

Lemma drop_stripped {W F E} (B : backend W F E) w b :
  (drop_block (logged B) w b).1 = drop_block B w.1 (strip_block <$> b).
Proof. by destruct b as [[]|]. Qed.

Lemma await_stripped {W F E} (B : backend W F E) e w c f :
  exists w' b x, await (logged B) e w c f = (w', b, x) /\ await B e w.1 c f.2 = (w'.1, strip_block b, x).
Proof.
  unfold await. cbn. destruct (b_poll B e w.1 f.2) as [w1 [g|[r|err]|]]; try by eexists _, _, _.
  destruct (opened c r); by eexists _, _, _.
Qed.

Lemma poll_stripped {W F E} (B : backend W F E) e w ty q b :
  exists w' x v, poll_held (logged B) e w ty q b = (w', x, v) /\
    poll_held B e w.1 ty q (strip_block <$> b) = (w'.1, strip x, v).
Proof.
  destruct b as [[c|c f| |]|]; cbn.
  - destruct (b_begin B w.1 (trait_call c)) as [w1 [f|]]; [|by eexists _, _, _].
    destruct (await_stripped B e (w1, w.2 ++ [(length w.2, DBegun (trait_call c))]) c (length w.2, f))
      as (w' & b & x & -> & H). cbn in H. rewrite H. by eexists _, _, _.
  - destruct (await_stripped B e w c f) as (w' & b & x & -> & H). rewrite H. by eexists _, _, _.
  - by eexists _, _, _.
  - by eexists _, _, _.
  - destruct (rq_args q) as [c|]; [|by eexists _, _, _]. cbn.
    destruct (b_begin B w.1 (trait_call c)) as [w1 [f|]]; [|by eexists _, _, _].
    destruct (await_stripped B e (w1, w.2 ++ [(length w.2, DBegun (trait_call c))]) c (length w.2, f))
      as (w' & b & x & -> & H). cbn in H. rewrite H. by eexists _, _, _.
Qed.

Lemma map_insert_list {A C} (f : A -> C) l i x : map f (<[i:=x]> l) = <[i:=f x]> (map f l).
Proof. revert i. induction l as [|y l IH]; intros [|i]; cbn; try done. by rewrite <- IH. Qed.
Lemma map_look {A C} (f : A -> C) l i : map f l !! i = option_map f (l !! i).
Proof. revert i. induction l as [|y l IH]; intros [|i]; cbn; done || apply IH. Qed.

Lemma c103_log (W F E : Type) (B : backend W F E) (h : list event) (w : W) (log : list (nat * deed E)) :
  (ap_world (any_run (logged B) h (w, log))).1 = ap_world (any_run B h w) /\
  ap_seen (any_run (logged B) h (w, log)) = ap_seen (any_run B h w).
Proof.
  assert (H : same_but_log (any_run B h w) (any_run (logged B) h (w, log))).
  { induction h as [|ev h IH] using rev_ind; [done|].
    unfold any_run. rewrite !fold_left_app. fold (any_run B h w) (any_run (logged B) h (w, log)).
    cbn [fold_left]. destruct IH as [Hw Hh Hs].
    destruct (any_run B h w) as [w0 os out], (any_run (logged B) h (w, log)) as [w1 os' out'].
    cbn in Hw, Hh, Hs. subst w0 os out'.
    destruct ev as [n|i m|e i|i]; cbn [any_step]; rewrite ?map_look.
    - split; cbn; try done. by rewrite map_app.
    - destruct (os' !! i) as [[[o b]|]|] eqn:Hi; cbn [option_map strip hd_object hd_block]; try done.
      destruct (call_method o m); split; cbn; rewrite ?map_insert_list; try done;
        apply drop_stripped.
    - destruct (os' !! i) as [[[[] b]|]|] eqn:Hi; cbn [option_map strip hd_object hd_block]; try done.
      destruct (poll_stripped B e w1 ty q b) as (w' & x & v & -> & ->).
      split; cbn; rewrite ?map_insert_list; done.
    - destruct (os' !! i) as [[[o b]|]|] eqn:Hi; cbn [option_map strip hd_object hd_block]; try done.
      split; cbn; rewrite ?map_insert_list; try done. apply drop_stripped. }
  by destruct H.
Qed.

(** ** Each request makes one call *)

Lemma in_flight_polled {W F E} (B : backend W F E) h (w : W) i x :
  compiles h -> pg_flight (progresses B h w) !! i = Some x -> was_polled i h = true.
Proof.
  intros Hc Hx. destruct (any_ok_all B h w Hc) as [_ _ _ Hslot Hnone _].
  destruct (decide (length (started h) <= i)%nat) as [Hge|Hlt].
  { rewrite Hnone in Hx; [done|by right]. }
  assert (i < length (started h))%nat as [n Hn]%lookup_lt_is_Some by lia.
  destruct (was_polled i h) eqn:Hp; [done|]. exfalso.
  assert (Hng : ~ gone h i). { intros Hg. rewrite Hnone in Hx; [done|by left]. }
  destruct (Hslot i n Hn Hng) as (o & b & _ & _ & Hb). rewrite ?Hp in Hb. destruct Hb as [_ Hb]. congruence.
Qed.

Lemma calls_begun_app {E} (l l' : list (nat * deed E)) :
  calls_begun (l ++ l') = calls_begun l ++ calls_begun l'.
Proof. apply omap_app. Qed.

Lemma begun_answer {W F E} (B : backend W F E) e w f :
  calls_begun (b_poll (logged B) e w f).1.2 = calls_begun w.2.
Proof.
  cbn [b_poll logged]. destruct (b_poll B e w.1 f.2) as [w1 []]; cbn [fst snd];
    rewrite calls_begun_app; cbn; by rewrite app_nil_r.
Qed.
Lemma begun_forgotten {W F E} (B : backend W F E) i w fl (x : view E) :
  calls_begun (forgotten (logged B) i w fl x).1.1.2 = calls_begun w.2.
Proof.
  unfold forgotten. destruct (fl !! i) as [[c f]|]; [|done]. cbn [b_drop logged fst snd].
  rewrite calls_begun_app. cbn.
  by rewrite app_nil_r.
Qed.

Lemma begun_call {W F E} (B : backend W F E) (w : W * list (nat * deed E)) c :
  calls_begun (b_begin (logged B) w c).1.2 = calls_begun w.2 ++ [c].
Proof.
  cbn [b_begin logged]. destruct (b_begin B w.1 c) as [w1 []]; cbn [fst snd]; by rewrite calls_begun_app.
Qed.

Lemma c103_calls (W F E : Type) (B : backend W F E) (h : list event) (w : W) :
  compiles h ->
  calls_begun (ap_world (any_run (logged B) h (w, []))).2 = map passed_on (map snd (calls_made h)).
Proof.
  intros Hc. destruct (c103 _ _ _ (logged B) h (w, []) Hc) as [-> _].
  induction h as [|ev h IH] using rev_ind; [done|].
  pose proof (compiles_app _ _ Hc) as Hc'. specialize (IH Hc').
  rewrite calls_made_snoc, !map_app, <- IH.
  pose proof (in_flight_polled (logged B) h (w, []) ) as Hfl.
  pose proof (ao_past _ _ _ (any_ok_all (logged B) h (w, []) Hc')) as Hpast.
  unfold progresses. rewrite fold_left_app. fold (progresses (logged B) h (w, [])). cbn [fold_left].
  destruct (progresses (logged B) h (w, [])) as [h0 w0 fl out]. cbn in Hpast, Hfl. subst h0. cbn [go_on].
  assert (Hg : calls_begun (happens (logged B) h ev w0 fl).1.1.2 = calls_begun w0.2 ++
    map passed_on (map snd (from_option (fun x => [x]) [] (call_made h ev)))).
  2: { destruct (happens (logged B) h ev w0 fl) as [[w1 fl1] x]. done. }
  destruct ev as [n|i m|e i|i]; cbn [happens call_made from_option map]; rewrite ?app_nil_r; try done.
  - destruct (started h !! i), (chain (h ++ [FCall i m]) i); try done;
      destruct (turns _ _ && _); try done; apply begun_forgotten.
  - destruct (fl !! i) as [[c f]|] eqn:Hi.
    + rewrite (Hfl i _ Hc' Hi). cbn [from_option map]. rewrite app_nil_r. apply begun_answer.
    + destruct (was_polled i h); [cbn; by rewrite app_nil_r|].
      destruct (chain h i); cbn [from_option map]; rewrite ?app_nil_r; try done. cbn [snd].
      rewrite <- (begun_call B w0 (passed_on c)).
      destruct (b_begin (logged B) w0 (passed_on c)) as [w1 [f|]]; [|done]. apply begun_answer.
  - apply begun_forgotten.
Qed.

(** ** The life of a call *)

Lemma deeds_app {E} id (l l' : list (nat * deed E)) : deeds id (l ++ l') = deeds id l ++ deeds id l'.
Proof. unfold deeds. by rewrite filter_app, fmap_app. Qed.
Lemma deeds_one {E} id id' (d : deed E) : deeds id [(id', d)] = if decide (id' = id) then [d] else [].
Proof. unfold deeds. rewrite filter_cons, filter_nil. cbn [fst]. by destruct (decide (id' = id)). Qed.

Record lives {F E} (log : list (nat * deed E)) (fl : gmap nat (client_call * (nat * F))) : Prop := Lives {
  lv_new : forall id, (length log <= id)%nat -> deeds id log = [];
  lv_flight : forall i c id f, fl !! i = Some (c, (id, f)) -> under_way (deeds id log);
  lv_uniq : forall i j c c' id f f',
    fl !! i = Some (c, (id, f)) -> fl !! j = Some (c', (id, f')) -> i = j;
  lv_rest : forall id, (forall i c f, fl !! i <> Some (c, (id, f))) ->
    deeds id log = [] \/ ended (deeds id log) }.

Lemma under_way_ended {E} (l : list (deed E)) x :
  under_way l -> match x with DAnswered _ | DDied | DDropped => True | _ => False end -> ended (l ++ [x]).
Proof. intros (c & n & ->) Hx. by exists c, n, x. Qed.
Lemma under_way_on {E} (l : list (deed E)) : under_way l -> under_way (l ++ [DPending]).
Proof.
  intros (c & n & ->). exists c, (S n). cbn. f_equal. induction n; cbn; [done|]. by rewrite IHn.
Qed.
Lemma under_way_old {E F} id (log : list (nat * deed E)) (fl : gmap nat (client_call * (nat * F))) :
  lives log fl -> under_way (deeds id log) -> (id < length log)%nat.
Proof.
  intros [Hnew _ _ _] (c & n & H). destruct (decide (length log <= id)%nat) as [Hge|]; [|lia].
  by rewrite Hnew in H.
Qed.

Lemma lives_end {F E} log (fl : gmap nat (client_call * (nat * F))) i c id f (x : deed E) :
  lives log fl -> fl !! i = Some (c, (id, f)) ->
  match x with DAnswered _ | DDied | DDropped => True | _ => False end ->
  lives (log ++ [(id, x)]) (delete i fl).
Proof.
  intros HL Hi Hx. pose proof (lv_flight _ _ HL _ _ _ _ Hi) as Hu.
  pose proof (under_way_old _ _ _ HL Hu) as Hold. destruct HL as [Hnew Hfl Huq Hrest].
  split.
  - intros id' Hge. rewrite app_length in Hge. cbn in Hge.
    rewrite deeds_app, deeds_one, decide_False, app_nil_r by lia. apply Hnew. lia.
  - intros j c' id' f' Hj. apply lookup_delete_Some in Hj as [Hne Hj].
    rewrite deeds_app, deeds_one, decide_False, app_nil_r; [by eapply Hfl|].
    intros ->. by apply Hne, (Huq _ _ _ _ _ _ _ Hi Hj).
  - intros j j' c1 c2 id' f1 f2 [_ H1]%lookup_delete_Some [_ H2]%lookup_delete_Some. by eapply Huq.
  - intros id' Hno. rewrite deeds_app, deeds_one. destruct (decide (id = id')) as [<-|Hne].
    + right. by apply under_way_ended.
    + rewrite app_nil_r. apply Hrest. intros j c1 f1 Hj. apply (Hno j c1 f1).
      rewrite lookup_delete_ne; [done|]. intros <-. congruence.
Qed.

Lemma lives_more {F E} log (fl : gmap nat (client_call * (nat * F))) i c c' id f g :
  lives (E:=E) log fl -> fl !! i = Some (c, (id, f)) ->
  lives (log ++ [(id, DPending)]) (<[i := (c', (id, g))]> fl).
Proof.
  intros HL Hi. pose proof (lv_flight _ _ HL _ _ _ _ Hi) as Hu.
  pose proof (under_way_old _ _ _ HL Hu) as Hold. destruct HL as [Hnew Hfl Huq Hrest].
  split.
  - intros id' Hge. rewrite app_length in Hge. cbn in Hge.
    rewrite deeds_app, deeds_one, decide_False, app_nil_r by lia. apply Hnew. lia.
  - intros j c1 id' f' Hj. rewrite deeds_app, deeds_one.
    apply lookup_insert_Some in Hj as [[<- Hj]|[Hne Hj]].
    + injection Hj as <- <- <-. rewrite decide_True by done. by apply under_way_on.
    + destruct (decide (id = id')) as [<-|]; [|rewrite app_nil_r; by eapply Hfl].
      by apply under_way_on.
  - intros j j' c1 c2 id' f1 f2 H1 H2.
    apply lookup_insert_Some in H1 as [[<- H1]|[Hne H1]];
      apply lookup_insert_Some in H2 as [[<- H2]|[Hne' H2]]; simplify_eq; try done;
      by eapply Huq.
  - intros id' Hno. rewrite deeds_app, deeds_one. destruct (decide (id = id')) as [<-|Hne].
    + exfalso. by apply (Hno i c' g), lookup_insert.
    + rewrite app_nil_r. apply Hrest. intros j c1 f1 Hj. apply (Hno j c1 f1).
      rewrite lookup_insert_ne; [done|]. intros <-. congruence.
Qed.

Lemma lives_begin {F E} log (fl : gmap nat (client_call * (nat * F))) i c c0 f :
  lives (E:=E) log fl -> fl !! i = None ->
  lives (log ++ [(length log, DBegun c)]) (<[i := (c0, (length log, f))]> fl).
Proof.
  intros HL Hi. assert (Hold : forall j c id f, fl !! j = Some (c, (id, f)) -> (id < length log)%nat).
  { intros j c1 id f1 Hj. by eapply under_way_old, (lv_flight _ _ HL). }
  destruct HL as [Hnew Hfl Huq Hrest]. split.
  - intros id' Hge. rewrite app_length in Hge. cbn in Hge.
    rewrite deeds_app, deeds_one, decide_False, app_nil_r by lia. apply Hnew. lia.
  - intros j c1 id' f' Hj. rewrite deeds_app, deeds_one.
    apply lookup_insert_Some in Hj as [[<- Hj]|[Hne Hj]].
    + injection Hj as <- <- <-. rewrite decide_True, Hnew by done. by exists c, 0%nat.
    + pose proof (Hold _ _ _ _ Hj). rewrite decide_False, app_nil_r by lia. by eapply Hfl.
  - intros j j' c1 c2 id' f1 f2 H1 H2.
    apply lookup_insert_Some in H1 as [[<- H1]|[Hne H1]];
      apply lookup_insert_Some in H2 as [[<- H2]|[Hne' H2]]; simplify_eq; try done.
    + pose proof (Hold _ _ _ _ H2). lia.
    + pose proof (Hold _ _ _ _ H1). lia.
    + by eapply Huq.
  - intros id' Hno. rewrite deeds_app, deeds_one. destruct (decide (length log = id')) as [<-|Hne].
    + exfalso. by apply (Hno i c0 f), lookup_insert.
    + rewrite app_nil_r. apply Hrest. intros j c1 f1 Hj. apply (Hno j c1 f1).
      rewrite lookup_insert_ne; [done|]. intros <-. congruence.
Qed.

Lemma lives_dead {F E} log (fl : gmap nat (client_call * (nat * F))) c :
  lives (E:=E) log fl -> lives (log ++ [(length log, DBegun c); (length log, DDied)]) fl.
Proof.
  intros HL. assert (Hold : forall j c id f, fl !! j = Some (c, (id, f)) -> (id < length log)%nat).
  { intros j c1 id f1 Hj. by eapply under_way_old, (lv_flight _ _ HL). }
  assert (Hd : forall id, deeds id (log ++ [(length log, DBegun c); (length log, DDied)])
    = deeds id log ++ if decide (length log = id) then [DBegun c; DDied] else []).
  { intros id. rewrite deeds_app. f_equal. change [(length log, DBegun c); (length log, DDied)]
      with ([(length log, DBegun (E:=E) c)] ++ [(length log, DDied)]).
    rewrite deeds_app, !deeds_one. by destruct (decide _). }
  destruct HL as [Hnew Hfl Huq Hrest]. split.
  - intros id' Hge. rewrite app_length in Hge. cbn in Hge. rewrite Hd.
    rewrite decide_False, app_nil_r by lia. apply Hnew. lia.
  - intros j c1 id' f' Hj. rewrite Hd. pose proof (Hold _ _ _ _ Hj).
    rewrite decide_False, app_nil_r by lia. by eapply Hfl.
  - done.
  - intros id' Hno. rewrite Hd. destruct (decide (length log = id')) as [<-|Hne].
    + rewrite Hnew by done. right. by exists c, 0%nat, DDied.
    + rewrite app_nil_r. by apply Hrest.
Qed.

Lemma lives_answered {W F E} (B : backend W F E) e (w : W * list (nat * deed E)) i c f fl :
  lives w.2 fl -> fl !! i = Some (c, f) ->
  let a := answered i c fl (b_poll (logged B) e w f) in lives a.1.1.2 a.1.2.
Proof.
  intros HL Hi. destruct f as [id f]. cbn. destruct (b_poll B e w.1 f) as [w1 [g|r|]]; cbn.
  - by eapply lives_more.
  - by eapply lives_end.
  - by eapply lives_end.
Qed.
Lemma lives_forgotten {W F E} (B : backend W F E) i (w : W * list (nat * deed E)) fl (x : view E) :
  lives w.2 fl -> let a := forgotten (logged B) i w fl x in lives a.1.1.2 a.1.2.
Proof.
  intros HL. unfold forgotten. destruct (fl !! i) as [[c [id f]]|] eqn:Hi; [|done]. cbn.
  by eapply lives_end.
Qed.

Lemma insert_answered {W F E} (B : backend W F E) e w i c f (fl : gmap nat (client_call * F)) y :
  fl !! i = None ->
  answered i c (<[i := y]> fl) (b_poll B e w f) = answered i c fl (b_poll B e w f).
Proof.
  intros Hi. unfold answered. destruct (b_poll B e w f) as [w1 [g|r|]]; cbn.
  - by rewrite insert_insert.
  - by rewrite delete_insert, delete_notin by done.
  - by rewrite delete_insert, delete_notin by done.
Qed.

Lemma lives_all {W F E} (B : backend W F E) h (w : W) :
  lives (pg_world (progresses (logged B) h (w, []))).2 (pg_flight (progresses (logged B) h (w, []))).
Proof.
  induction h as [|ev h IH] using rev_ind.
  { split; cbn; try done. intros id _. by left. }
  unfold progresses. rewrite fold_left_app. fold (progresses (logged B) h (w, [])). cbn [fold_left].
  destruct (progresses (logged B) h (w, [])) as [h0 w0 fl out]. cbn in IH. cbn [go_on].
  assert (Hg : lives (happens (logged B) h0 ev w0 fl).1.1.2 (happens (logged B) h0 ev w0 fl).1.2).
  2: { destruct (happens (logged B) h0 ev w0 fl) as [[w1 fl1] x]. done. }
  destruct ev as [n|i m|e i|i]; cbn [happens]; try done.
  - destruct (started h0 !! i), (chain (h0 ++ [FCall i m]) i); try done;
      destruct (turns _ _ && _); try done; by apply lives_forgotten.
  - destruct (fl !! i) as [[c f]|] eqn:Hi; [by apply lives_answered|].
    destruct (was_polled i h0); [done|]. destruct (chain h0 i) as [|c| |]; try done.
    cbn [b_begin logged]. destruct (b_begin B w0.1 (passed_on c)) as [w1 [f|]].
    + rewrite <- (insert_answered (logged B) e _ i c (length w0.2, f) fl (c, (length w0.2, f)) Hi).
      apply lives_answered; [|apply lookup_insert]. cbn. by apply lives_begin.
    + cbn. assert (Hb : lives (w0.2 ++ [(length w0.2, DBegun (passed_on c)); (length w0.2, DDied)]) fl); [|done].
      by apply lives_dead.
  - by apply lives_forgotten.
Qed.

Lemma c103_lives (W F E : Type) (B : backend W F E) (h : list event) (w : W) (id : nat) :
  compiles h ->
  let l := deeds id (ap_world (any_run (logged B) h (w, []))).2 in
  l = [] \/ ended l \/
  under_way l /\ exists i, (i < length (started h))%nat /\ was_polled i h = true /\ ~ gone h i.
Proof.
  intros Hc. destruct (c103 _ _ _ (logged B) h (w, []) Hc) as [-> _]. cbn zeta.
  pose proof (lives_all B h w) as HL.
  pose proof (in_flight_polled (logged B) h (w, [])) as Hfl.
  pose proof (ao_none _ _ _ (any_ok_all (logged B) h (w, []) Hc)) as Hnone.
  destruct (progresses (logged B) h (w, [])) as [h0 w0 fl out]. cbn in *.
  destruct (decide (map_Exists (fun _ x => x.2.1 = id) fl)) as [(i & [c [id' f]] & Hi & Hid)|Hno].
  - cbn in Hid. subst id'. right. right. split; [by eapply (lv_flight _ _ HL)|].
    exists i. split; [|split; [by eapply Hfl|]].
    + destruct (decide (i < length (started h))%nat) as [|Hge]; [done|]. rewrite Hnone in Hi; [done|]. right. lia.
    + intros Hg. rewrite Hnone in Hi; [done|by left].
  - destruct (lv_rest _ _ HL id) as [H|H]; [|by left|by right; left].
    intros i c f Hi. apply Hno. exists i, (c, (id, f)). done.
Qed.

(** ** The memory backend *)

Lemma mem_opened e s c :
  match mem_call e s (passed_on c) with
  | (s', ROk r) => match opened c r with Some r => (s', ROk r) | None => (s', RPanic) end
  | x => x
  end = mem_call e s c.
Proof.
  rewrite <- trait_call_eq.
  assert (Hk : forall t (x : store * client_res value),
    match with_reply RpValue x with
    | (s', ROk r) => match expect t r with Some r => (s', ROk r) | None => (s', RPanic) end
    | y => y
    end = with_reply RpValue (then_kind t x)).
  { intros t [s' [v|err| |]]; try done. cbn. unfold with_reply, then_kind, of_kind. cbn. by destruct (decide _). }
  assert (Hp : forall y : store * client_res reply,
    match y with (s', ROk r) => (s', ROk r) | (s', RErr err) => (s', RErr err)
    | (s', RPanic) => (s', RPanic) | (s', RNever) => (s', RNever) end = y) by by intros [s' []].
  destruct c; cbn [trait_call mem_call opened]; try apply Hk; apply Hp.
Qed.

Lemma memory_answer e s c i (fl : gmap nat (client_call * client_call)) :
  fl !! i = None ->
  answered i c fl (b_poll memory_backend e s (passed_on c)) =
    ((mem_call e s c).1, fl, as_view match (mem_call e s c).2 with RPanic => GPanic | r => GReady r end).
Proof.
  intros Hi. pose proof (mem_opened e s c) as Hm. unfold answered. cbn [b_poll memory_backend].
  destruct (mem_call e s (passed_on c)) as [s1 r] eqn:Er.
  destruct r as [r|err| |]; rewrite <- Hm; cbn; rewrite delete_notin by done; try done.
  assert (H : opened c r = match r, wanted_kind c with
     | RpValue v, Some t => if decide (kind v = t) then Some r else None | _, _ => Some r end).
  { destruct c, r; try done; cbn; unfold of_kind; by destruct (decide _). }
  rewrite H. destruct r as [v| | | | | |], (wanted_kind c) as [t0|]; cbn;
    try destruct (decide (kind v = t0)); done.
Qed.

Lemma c103_memory (h : list event) (s : store) :
  compiles h ->
  ap_world (any_run memory_backend h s) = fl_store (fluents h s) /\
  ap_seen (any_run memory_backend h s) = map as_view (fl_seen (fluents h s)).
Proof.
  intros Hc. destruct (c103 _ _ _ memory_backend h s Hc) as [-> ->].
  assert (H : pg_world (progresses memory_backend h s) = fl_store (fluents h s) /\
    pg_seen (progresses memory_backend h s) = map as_view (fl_seen (fluents h s)) /\
    pg_flight (progresses memory_backend h s) = ∅); [|by destruct H as (? & ? & ?)].
  induction h as [|ev h IH] using rev_ind; [done|].
  pose proof (compiles_app _ _ Hc) as Hc'. destruct (IH Hc') as (H1 & H2 & H3).
  destruct (c98 (h ++ [ev]) s Hc) as (F1 & F2 & F3). destruct (c98 h s Hc') as (G1 & G2 & G3).
  pose proof (ao_past _ _ _ (any_ok_all memory_backend h s Hc')) as Hpast.
  assert (Hsn : fl_seen (fluents (h ++ [ev]) s) = fl_seen (fluents h s) ++ [sees h ev s]).
  { apply list_eq_same_length with (n := length (h ++ [ev])); [by rewrite app_length, G2, app_length|by rewrite F2|].
    intros i x y Hi Hx Hy.
    destruct (lookup_lt_is_Some_2 _ _ Hi) as [ev' Hev]. rewrite (F3 _ _ Hev) in Hx. injection Hx as <-.
    apply lookup_app_Some in Hev as [Hev|[Hge Hev]].
    - pose proof (lookup_lt_Some _ _ _ Hev). rewrite take_app_le by lia.
      rewrite lookup_app_l, (G3 _ _ Hev) in Hy by lia. by injection Hy.
    - apply list_lookup_singleton_Some in Hev as [H0 <-]. replace i with (length h) in * by lia.
      rewrite take_app. rewrite lookup_app_r, G2, Nat.sub_diag in Hy by lia. by injection Hy. }
  rewrite F1, Hsn, map_app, <- H2, calls_made_snoc, mem_calls_app.
  unfold progresses. rewrite fold_left_app. fold (progresses memory_backend h s). cbn [fold_left].
  destruct (progresses memory_backend h s) as [h0 w0 fl out].
  cbn in H1, H2, H3, Hpast. subst h0 fl w0. cbn [go_on].
  rewrite G1.
  assert (Hg : happens memory_backend h ev (mem_calls (calls_made h) s).1 ∅ =
    ((mem_calls (from_option (fun x => [x]) [] (call_made h ev)) (mem_calls (calls_made h) s).1).1, ∅,
     as_view (sees h ev s))); [|by rewrite Hg].
  destruct ev as [n|i m|e i|i]; cbn [happens call_made from_option map sees]; try done.
  - destruct (started h !! i), (chain (h ++ [FCall i m]) i); try done;
      destruct (turns _ _ && _); done.
  - rewrite lookup_empty. pose proof (compiles_last _ _ Hc) as (_ & c & Hch).
    destruct (was_polled i h); [done|]. rewrite Hch.
    cbn [b_begin memory_backend from_option]. rewrite mem_calls_one. by apply memory_answer.
Qed.
