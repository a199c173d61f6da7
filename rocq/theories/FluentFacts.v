(** Proofs about chains of methods. *)
From Coq Require Import String.
From Verif Require Import Bytes BytesFacts Value Metrics Prog Commands HistorySpec Client ClientSpec Futures
  FutureSpec FutureFacts Fluent FluentSpec.
From stdpp Require Import gmap list.
From Coq Require Import NArith ZArith Lia.
From Coq Require Import ZifyBool ZifyNat ZifyN.

(** ** Collections *)

Lemma map_from_iter_spec l : map_from_iter l = list_to_map (reverse l).
Proof.
  unfold map_from_iter.
  induction l as [|[k v] l IH] using rev_ind; [done|].
  rewrite fold_left_app, IH, reverse_app. cbn. done.
Qed.
Lemma set_from_iter_spec l : set_from_iter l = list_to_set l.
Proof.
  unfold set_from_iter. apply leibniz_equiv.
  assert (H : forall s, fold_left (fun (s : gset bytes) x => {[x]} ∪ s) l s ≡ list_to_set l ∪ s).
  { induction l as [|x l IH]; intros s; cbn; [set_solver|]. rewrite IH. set_solver. }
  rewrite H. set_solver.
Qed.

Lemma mapM_snoc {A B} (f : A -> option B) l x :
  mapM f (l ++ [x]) = match mapM f l, f x with Some l', Some y => Some (l' ++ [y]) | _, _ => None end.
Proof.
  induction l as [|a l IH]; cbn; [by destruct (f x)|].
  destruct (f a); cbn; [|done]. rewrite IH. destruct (mapM f l); cbn; [|done]. by destruct (f x).
Qed.
Lemma settings_snoc {A} (f : method -> option A) ms m g :
  settings f (ms ++ [m]) g =
  match settings f ms g, f m with Asks _, Some x => Asks (g (Some x)) | _, _ => Ill end.
Proof.
  unfold settings. rewrite mapM_snoc. destruct (mapM f ms); [|done]. destruct (f m); [|done].
  by rewrite last_snoc.
Qed.

(** ** One request *)

Definition type_of (c : client_call) : rtype :=
  match c with
  | KGet _ => TGet
  | KIncrement _ _ => TIncrement | KIncrementInt _ _ => TIncrementInteger
  | KIncrementFloat _ _ => TIncrementFloat
  | KDecrement _ _ => TDecrement | KDecrementInt _ _ => TDecrementInteger
  | KDecrementFloat _ _ => TDecrementFloat
  | KLength _ _ => TLength
  | _ => TPlain
  end.

Definition fits (n : entry) (ms : list method) (polled : bool) (o : object) : Prop :=
  match asks n ms with
  | Waits => polled = false /\ ms = [] /\ o = start n
  | Asks c => exists q, o = OFuture (type_of c) q /\ if polled then spent q else q = request_new c
  | _ => False
  end.

Lemma fits_start n : fits n [] false (start n).
Proof. unfold fits. destruct n; cbn; by eauto. Qed.

Lemma with_checked_spec l f :
  with_checked l f = match one_to_255 l f with
                     | Asks c => plain c | Refused err => Refuses err | _ => NoMethod end.
Proof.
  unfold with_checked, checked_keys, one_to_255. destruct l as [|x l]; [done|].
  destruct (N.leb_spec (lenN (x :: l)) 255) as [H|H].
  - by replace (255 <? lenN (x :: l))%N with false by lia.
  - by replace (255 <? lenN (x :: l))%N with true by lia.
Qed.

Lemma asks_settings n ms :
  match n, ms with
  | NIncrement k, MAs KTInteger :: r => asks n ms = settings by_int r (KIncrementInt k)
  | NIncrement k, MAs KTFloat :: r => asks n ms = settings by_float r (KIncrementFloat k)
  | NDecrement k, MAs KTInteger :: r => asks n ms = settings by_int r (KDecrementInt k)
  | NDecrement k, MAs KTFloat :: r => asks n ms = settings by_float r (KDecrementFloat k)
  | NLength k, ms => asks n ms = settings has_length ms (KLength k)
  | _, _ => True
  end.
Proof.
  destruct n; try done; destruct ms as [|m r]; try done; destruct m as [t| | | | | | | | | | | | |];
    try done; by destruct t.
Qed.

(** A setting on a request whose chain consists of settings. *)
Lemma adjust_fits {A} (f : method -> option A) ms m g ty h polled (o : object) :
  (forall x, type_of (g x) = ty) -> (forall x y, h x (g y) = g (Some x)) ->
  (match settings f ms g with
   | Asks c => exists q, o = OFuture (type_of c) q /\ if polled : bool then spent q else q = request_new c
   | _ => False end) ->
  settings f (ms ++ [m]) g <> Ill ->
  exists x q, f m = Some x /\ o = OFuture ty q /\
    exists q', adjust q ty (h x) = Gives (OFuture ty q') /\
    match settings f (ms ++ [m]) g with
    | Asks c => exists q, OFuture ty q' = OFuture (type_of c) q /\
                          if polled then spent q else q = request_new c
    | _ => False
    end.
Proof.
  intros Hty Hh Ho Hne. rewrite settings_snoc in *. unfold settings in Ho.
  unfold settings in Hne. unfold settings.
  destruct (mapM f ms) as [l|]; [|done]. destruct (f m) as [x|]; [|done].
  destruct Ho as (q & -> & Hq). rewrite Hty. exists x, q. split_and!; [done..|].
  eexists. split; [done|]. rewrite Hty. eexists. split; [done|].
  destruct polled.
  - by destruct Hq as [-> | ->]; [left|right].
  - subst q. cbn. by rewrite Hh.
Qed.

Lemma call_fits n ms polled o m :
  fits n ms polled o -> asks n (ms ++ [m]) <> Ill ->
  match asks n (ms ++ [m]) with
  | Refused err => call_method o m = Refuses err /\ polled = false
  | _ =>
    if turns n m && polled then call_method o m = Blows
    else exists o', call_method o m = Gives o' /\ fits n (ms ++ [m]) polled o'
  end.
Proof.
  unfold fits. intros Ho Hne.
  destruct n as [k|k|k|b| |k|k|t|k|k|k|a b|k|].
  - (* append *)
    destruct ms as [|m1 ms]; cbn in Ho.
    + destruct Ho as (-> & _ & ->). rewrite andb_false_r.
      destruct m; cbn in *; try done; (eexists; split; [done|]; by eexists).
    + exfalso. apply Hne. destruct m1, ms; done.
  - (* decrement *)
    destruct ms as [|m1 ms].
    + cbn in Ho. destruct Ho as (q & -> & Hq).
      destruct m as [t| | | | | | | | | | | | |]; try done. cbn [app] in *.
      destruct t; cbn in Hne |- *; try done.
      * destruct polled; [by destruct Hq as [-> | ->]|]. subst q. eexists. split; [done|]. by eexists.
      * destruct polled; [by destruct Hq as [-> | ->]|]. subst q. eexists. split; [done|]. by eexists.
    + destruct m1 as [t| | | | | | | | | | | | |]; try done. destruct t; try done.
      * change (asks (NDecrement k) ((MAs KTFloat :: ms) ++ [m]))
          with (settings by_float (ms ++ [m]) (KDecrementFloat k)) in *.
        change (asks (NDecrement k) (MAs KTFloat :: ms))
          with (settings by_float ms (KDecrementFloat k)) in *.
        edestruct (adjust_fits by_float ms m (KDecrementFloat k) TDecrementFloat
          (fun x c => KDecrementFloat (key_of c) (Some x)) polled o)
          as (x & q & Hm & -> & q' & Hq & Hf); [done|done|revert Ho; unfold settings; by destruct (mapM _ ms)|exact Hne|].
        destruct m; try done. injection Hm as ->. cbn [turns andb call_method].
        destruct (settings by_float (ms ++ [_]) _); try done.
        eexists. split; [exact Hq|]. exact Hf.
      * change (asks (NDecrement k) ((MAs KTInteger :: ms) ++ [m]))
          with (settings by_int (ms ++ [m]) (KDecrementInt k)) in *.
        change (asks (NDecrement k) (MAs KTInteger :: ms))
          with (settings by_int ms (KDecrementInt k)) in *.
        edestruct (adjust_fits by_int ms m (KDecrementInt k) TDecrementInteger
          (fun x c => KDecrementInt (key_of c) (Some x)) polled o)
          as (x & q & Hm & -> & q' & Hq & Hf); [done|done|revert Ho; unfold settings; by destruct (mapM _ ms)|exact Hne|].
        destruct m; try done. injection Hm as ->. cbn [turns andb call_method].
        destruct (settings by_int (ms ++ [_]) _); try done.
        eexists. split; [exact Hq|]. exact Hf.
  - (* delete *)
    exfalso. apply Hne. by destruct ms.
  - exfalso. apply Hne. by destruct ms.
  - (* exists *)
    destruct ms as [|m1 ms]; cbn in Ho.
    + destruct Ho as (-> & _ & ->). rewrite andb_false_r.
      destruct m; cbn in *; try done.
      * eexists; split; [done|]; by eexists.
      * rewrite with_checked_spec. unfold one_to_255 in *. destruct l; [done|].
        destruct (_ <=? _)%N; [|done]. eexists; split; [done|]; by eexists.
    + exfalso. apply Hne. destruct m1, ms; done.
  - (* get *)
    destruct ms as [|m1 ms].
    + cbn in Ho. destruct Ho as (q & -> & Hq). destruct m as [t| | | | | | | | | | | | |]; try done.
      cbn. destruct polled; [by destruct Hq as [-> | ->]|]. subst q. eexists. split; [done|]. by eexists.
    + exfalso. apply Hne. destruct m1, ms; done.
  - (* increment *)
    destruct ms as [|m1 ms].
    + cbn in Ho. destruct Ho as (q & -> & Hq).
      destruct m as [t| | | | | | | | | | | | |]; try done. cbn [app] in *.
      destruct t; cbn in Hne |- *; try done.
      * destruct polled; [by destruct Hq as [-> | ->]|]. subst q. eexists. split; [done|]. by eexists.
      * destruct polled; [by destruct Hq as [-> | ->]|]. subst q. eexists. split; [done|]. by eexists.
    + destruct m1 as [t| | | | | | | | | | | | |]; try done. destruct t; try done.
      * change (asks (NIncrement k) ((MAs KTFloat :: ms) ++ [m]))
          with (settings by_float (ms ++ [m]) (KIncrementFloat k)) in *.
        change (asks (NIncrement k) (MAs KTFloat :: ms))
          with (settings by_float ms (KIncrementFloat k)) in *.
        edestruct (adjust_fits by_float ms m (KIncrementFloat k) TIncrementFloat
          (fun x c => KIncrementFloat (key_of c) (Some x)) polled o)
          as (x & q & Hm & -> & q' & Hq & Hf); [done|done|revert Ho; unfold settings; by destruct (mapM _ ms)|exact Hne|].
        destruct m; try done. injection Hm as ->. cbn [turns andb call_method].
        destruct (settings by_float (ms ++ [_]) _); try done.
        eexists. split; [exact Hq|]. exact Hf.
      * change (asks (NIncrement k) ((MAs KTInteger :: ms) ++ [m]))
          with (settings by_int (ms ++ [m]) (KIncrementInt k)) in *.
        change (asks (NIncrement k) (MAs KTInteger :: ms))
          with (settings by_int ms (KIncrementInt k)) in *.
        edestruct (adjust_fits by_int ms m (KIncrementInt k) TIncrementInteger
          (fun x c => KIncrementInt (key_of c) (Some x)) polled o)
          as (x & q & Hm & -> & q' & Hq & Hf); [done|done|revert Ho; unfold settings; by destruct (mapM _ ms)|exact Hne|].
        destruct m; try done. injection Hm as ->. cbn [turns andb call_method].
        destruct (settings by_int (ms ++ [_]) _); try done.
        eexists. split; [exact Hq|]. exact Hf.
  - (* is *)
    destruct ms as [|m1 ms]; cbn in Ho.
    + destruct Ho as (-> & _ & ->). rewrite andb_false_r.
      destruct m; cbn in *; try done.
      * eexists; split; [done|]; by eexists.
      * rewrite with_checked_spec. unfold one_to_255 in *. destruct l; [done|].
        destruct (_ <=? _)%N; [|done]. eexists; split; [done|]; by eexists.
    + exfalso. apply Hne. destruct m1, ms; done.
  - exfalso. apply Hne. by destruct ms.
  - exfalso. apply Hne. by destruct ms.
  - (* length *)
    assert (Hs : forall ms, asks (NLength k) ms = settings has_length ms (KLength k)).
    { intros ms'. by destruct ms'. }
    rewrite Hs in *.
    edestruct (adjust_fits has_length ms m (KLength k) TLength
      (fun x c => KLength (key_of c) (Some x)) polled o)
      as (x & q & Hm & -> & q' & Hq & Hf); [done|done|revert Ho; unfold settings; by destruct (mapM _ ms)|exact Hne|].
    destruct m as [t| | | | | | | | | | | | |]; try done.
    destruct (settings has_length (ms ++ [_]) _); try done.
    cbn [turns andb]. exists (OFuture TLength q'). split; [|exact Hf].
    destruct t; try done; injection Hm as <-; exact Hq.
  - exfalso. apply Hne. by destruct ms.
  - (* set *)
    destruct ms as [|m1 ms]; cbn in Ho.
    + destruct Ho as (-> & _ & ->). rewrite andb_false_r.
      destruct m; cbn in *; try done; rewrite ?map_from_iter_spec, ?set_from_iter_spec;
        (eexists; split; [done|]; by eexists).
    + exfalso. apply Hne. destruct m1, ms; done.
  - exfalso. apply Hne. by destruct ms.
Qed.

(** ** Histories *)

Lemma started_snoc h ev :
  started (h ++ [ev]) = started h ++ match ev with FStart n => [n] | _ => [] end.
Proof. unfold started. rewrite omap_app. by destruct ev. Qed.
Lemma methods_snoc h ev i :
  methods_of (h ++ [ev]) i
  = methods_of h i ++ match ev with FCall j m => if (i =? j)%nat then [m] else [] | _ => [] end.
Proof.
  unfold methods_of. rewrite omap_app. f_equal. destruct ev; try done. cbn. by destruct (_ =? _)%nat.
Qed.
Lemma was_polled_snoc i h ev :
  was_polled i (h ++ [ev])
  = was_polled i h || match ev with FPoll _ j => (i =? j)%nat | _ => false end.
Proof. unfold was_polled. rewrite existsb_app. cbn. by rewrite orb_false_r. Qed.
Lemma gone_snoc h ev i : gone (h ++ [ev]) i <-> gone h i \/ ends_with h ev i.
Proof.
  split.
  - intros (j & ev' & Hj & He). apply lookup_app_Some in Hj as [Hj|[Hlen Hj]].
    + left. exists j, ev'. split; [done|]. apply lookup_lt_Some in Hj.
      by rewrite take_app_le in He by lia.
    + right. apply list_lookup_singleton_Some in Hj as [H1 <-].
      replace j with (length h) in He by lia. by rewrite take_app in He.
  - intros [(j & ev' & Hj & He)|He].
    + exists j, ev'. split; [by apply lookup_app_l_Some|]. apply lookup_lt_Some in Hj.
      by rewrite take_app_le by lia.
    + exists (length h), ev. rewrite take_app. split; [|done].
      by rewrite lookup_app_r, Nat.sub_diag by done.
Qed.
Lemma calls_made_snoc h ev :
  calls_made (h ++ [ev]) = calls_made h ++ from_option (fun x => [x]) [] (call_made h ev).
Proof.
  unfold calls_made. rewrite app_length. cbn [length]. rewrite Nat.add_1_r, seq_S, Nat.add_0_l.
  rewrite omap_app. f_equal.
  - assert (H : forall l, Forall (fun j => (j < length h)%nat) l ->
      omap (fun j => (h ++ [ev]) !! j ≫= call_made (take j (h ++ [ev]))) l
      = omap (fun j => h !! j ≫= call_made (take j h)) l).
    { induction 1 as [|j l Hj _ IH]; [done|]. cbn. rewrite lookup_app_l by done.
      rewrite take_app_le by lia. by rewrite IH. }
    apply H, Forall_forall. intros j Hj%elem_of_seq. lia.
  - cbn. rewrite lookup_app_r, Nat.sub_diag by done. cbn. rewrite take_app.
    by destruct (call_made h ev).
Qed.
Lemma compiles_app h ev : compiles (h ++ [ev]) -> compiles h.
Proof.
  intros H j ev' Hj. specialize (H j ev' (lookup_app_l_Some _ _ _ _ Hj)).
  apply lookup_lt_Some in Hj. by rewrite take_app_le in H by lia.
Qed.
Lemma compiles_last h ev : compiles (h ++ [ev]) ->
  match ev with
  | FStart _ => True
  | FDrop i => (i < length (started h))%nat /\ ~ gone h i
  | FCall i m => ~ gone h i /\ chain (h ++ [ev]) i <> Ill
  | FPoll _ i => ~ gone h i /\ exists c, chain h i = Asks c
  end.
Proof.
  intros H. specialize (H (length h) ev). rewrite take_app in H. apply H.
  by rewrite lookup_app_r, Nat.sub_diag by done.
Qed.

Lemma chain_started h i : chain h i <> Ill -> exists n, started h !! i = Some n.
Proof. unfold chain. destruct (started h !! i); [by eexists|done]. Qed.

Lemma not_started h i :
  compiles h -> (length (started h) <= i)%nat -> methods_of h i = [] /\ was_polled i h = false.
Proof.
  induction h as [|ev h IH] using rev_ind; intros Hc Hi; [done|].
  rewrite started_snoc, app_length in Hi.
  destruct (IH (compiles_app _ _ Hc)) as [H1 H2]; [lia|].
  rewrite methods_snoc, was_polled_snoc, H1, H2. apply compiles_last in Hc.
  destruct ev as [n|j m|e j|j]; try done.
  - destruct (Nat.eqb_spec i j) as [<-|]; [|done]. exfalso.
    destruct Hc as [_ Hc]. apply chain_started in Hc as [n Hn].
    rewrite started_snoc, app_nil_r in Hn. apply lookup_lt_Some in Hn. lia.
  - destruct (Nat.eqb_spec i j) as [<-|]; [|done]. exfalso.
    destruct Hc as (_ & c & Hc). assert (chain h i <> Ill) as [n Hn]%chain_started by (by rewrite Hc).
    apply lookup_lt_Some in Hn. lia.
Qed.

Record fluent_ok (h : list event) (s : store) (p : fluent) : Prop := FluentOk {
  fo_store : fl_store p = (mem_calls (calls_made h) s).1;
  fo_len : length (fl_objects p) = length (started h);
  fo_slot : forall i n, started h !! i = Some n -> ~ gone h i ->
    exists o, fl_objects p !! i = Some (Some o) /\ fits n (methods_of h i) (was_polled i h) o;
  fo_seen_len : length (fl_seen p) = length h;
  fo_seen : forall j ev, h !! j = Some ev -> fl_seen p !! j = Some (sees (take j h) ev s) }.

Lemma seen_snoc h ev (out : list sight) s x :
  length out = length h ->
  (forall j ev, h !! j = Some ev -> out !! j = Some (sees (take j h) ev s)) ->
  x = sees h ev s ->
  length (out ++ [x]) = length (h ++ [ev]) /\
  forall j ev', (h ++ [ev]) !! j = Some ev' ->
    (out ++ [x]) !! j = Some (sees (take j (h ++ [ev])) ev' s).
Proof.
  intros Hlen Hs ->. split; [rewrite !app_length; cbn; lia|].
  intros j ev' Hj. apply lookup_app_Some in Hj as [Hj|[Hge Hj]].
  - pose proof (lookup_lt_Some _ _ _ Hj). rewrite lookup_app_l by lia.
    rewrite take_app_le by lia. by apply Hs.
  - apply list_lookup_singleton_Some in Hj as [H1 <-].
    replace j with (length h) by lia. rewrite take_app.
    by rewrite lookup_app_r, Hlen, Nat.sub_diag by lia.
Qed.

Lemma fluent_ok_all h s : compiles h -> fluent_ok h s (fluents h s).
Proof.
  induction h as [|ev h IH] using rev_ind; intros Hc.
  { split; cbn; try done. }
  pose proof (IH (compiles_app _ _ Hc)) as [Hs Hn Hslot Hlen Hseen].
  pose proof (compiles_last _ _ Hc) as Hl.
  unfold fluents. rewrite fold_left_app. fold (fluents h s). cbn [fold_left].
  destruct (fluents h s) as [s0 os out] eqn:E. cbn in Hs, Hn, Hslot, Hlen, Hseen.
  destruct ev as [n|i m|e i|i]; cbn [fluent_step].
  - (* start *)
    destruct (seen_snoc h (FStart n) out s GNothing Hlen Hseen eq_refl) as [Hlen' Hseen'].
    split; cbn [fl_store fl_objects fl_seen]; [| | |done|done].
    + rewrite calls_made_snoc. cbn. by rewrite app_nil_r.
    + rewrite started_snoc, !app_length. cbn. lia.
    + intros i n' Hi Hg. rewrite methods_snoc, app_nil_r, was_polled_snoc, orb_false_r.
      rewrite started_snoc in Hi. apply lookup_app_Some in Hi as [Hi|[Hge Hi]].
      * destruct (Hslot i n' Hi) as (o & Ho & Hf).
        { intros Hg'. apply Hg, gone_snoc. by left. }
        exists o. split; [|done]. by apply lookup_app_l_Some.
      * apply list_lookup_singleton_Some in Hi as [H1 <-].
        exists (start n). split.
        { rewrite lookup_app_r by lia. replace (i - length os)%nat with 0%nat by lia. done. }
        destruct (not_started h i) as [-> ->]; [by eapply compiles_app|lia|]. apply fits_start.
  - (* a method *)
    destruct Hl as [Hng Hne]. pose proof Hne as Hne'. apply chain_started in Hne' as [n Hn'].
    rewrite started_snoc, app_nil_r in Hn'.
    destruct (Hslot i n Hn' Hng) as (o & Ho & Hf). rewrite Ho.
    assert (Hchain : chain (h ++ [FCall i m]) i = asks n (methods_of h i ++ [m])).
    { unfold chain. rewrite started_snoc, app_nil_r, Hn', methods_snoc, Nat.eqb_refl. done. }
    pose proof (call_fits n (methods_of h i) (was_polled i h) o m Hf) as Hcall.
    rewrite Hchain in Hne. specialize (Hcall Hne).
    assert (Hother : forall k n' o', k <> i -> started (h ++ [FCall i m]) !! k = Some n' ->
      ~ gone (h ++ [FCall i m]) k ->
      exists o, <[i:=o']> os !! k = Some (Some o) /\
        fits n' (methods_of (h ++ [FCall i m]) k) (was_polled k (h ++ [FCall i m])) o).
    { intros k n' o' Hk Hs' Hg. rewrite started_snoc, app_nil_r in Hs'.
      rewrite methods_snoc, was_polled_snoc, orb_false_r.
      replace (k =? i)%nat with false by (symmetry; by apply Nat.eqb_neq).
      rewrite app_nil_r, list_lookup_insert_ne by done. apply Hslot; [done|].
      intros Hg'. apply Hg, gone_snoc. by left. }
    assert (Hst : forall x os', length os' = length os ->
      x = sees h (FCall i m) s ->
      (~ gone (h ++ [FCall i m]) i -> exists o, os' !! i = Some (Some o) /\
         fits n (methods_of h i ++ [m]) (was_polled i h) o) ->
      (forall k, k <> i -> os' !! k = os !! k) ->
      fluent_ok (h ++ [FCall i m]) s (Fluent s0 os' (out ++ [x]))).
    { intros x os' Hlo Hx Hi Hk.
      destruct (seen_snoc h (FCall i m) out s x Hlen Hseen Hx) as [Hlen' Hseen'].
      split; cbn [fl_store fl_objects fl_seen]; [| | |done|done].
      - rewrite calls_made_snoc. cbn. by rewrite app_nil_r.
      - rewrite started_snoc, app_nil_r. lia.
      - intros k n' Hs' Hg. destruct (decide (k = i)) as [->|Hki].
        + rewrite started_snoc, app_nil_r, Hn' in Hs'. injection Hs' as <-.
          rewrite methods_snoc, Nat.eqb_refl, was_polled_snoc, orb_false_r. by apply Hi.
        + rewrite Hk by done. destruct (Hother k n' None Hki Hs' Hg) as (o' & Ho' & Hf').
          rewrite list_lookup_insert_ne in Ho' by done. by exists o'. }
    assert (Hsee : sees h (FCall i m) s =
      match asks n (methods_of h i ++ [m]) with
      | Refused err => GRefused err
      | _ => if turns n m && was_polled i h then GPanic else GNothing
      end).
    { cbn [sees]. rewrite Hn', Hchain. done. }
    assert (Hlt : (i < length os)%nat) by (by eapply lookup_lt_Some).
    assert (Hend : ends_with h (FCall i m) i -> gone (h ++ [FCall i m]) i).
    { intros. apply gone_snoc. by right. }
    destruct (asks n (methods_of h i ++ [m])) as [|c|err|] eqn:Ea; try done.
    1,2: destruct (turns n m && was_polled i h) eqn:Et;
      [ rewrite Hcall; apply Hst;
        [by rewrite insert_length|done| |intros; by rewrite list_lookup_insert_ne];
        intros []; apply Hend; cbn; split; [done|]; left; exists n;
        by apply andb_true_iff in Et as [-> ->]
      | destruct Hcall as (o' & -> & Hf'); apply Hst;
        [by rewrite insert_length|done| |intros; by rewrite list_lookup_insert_ne];
        intros _; exists o'; split; [by rewrite list_lookup_insert|];
        done ].
    destruct Hcall as [-> Hp]. apply Hst;
      [by rewrite insert_length|done| |intros; by rewrite list_lookup_insert_ne].
    intros []. apply Hend. cbn. split; [done|]. right. exists err. by rewrite Hchain.
  - (* poll *)
    destruct Hl as (Hng & c & Hch). assert (chain h i <> Ill) as [n Hn']%chain_started by by rewrite Hch.
    destruct (Hslot i n Hn' Hng) as (o & Ho & Hf). rewrite Ho.
    unfold chain in Hch. rewrite Hn' in Hch. unfold fits in Hf. rewrite Hch in Hf.
    destruct Hf as (q & -> & Hq).
    assert (Hlt : (i < length os)%nat) by (by eapply lookup_lt_Some).
    assert (Hch' : chain h i = Asks c) by (unfold chain; by rewrite Hn').
    assert (Hp : exists s1 q' r, poll e s0 q = (s1, q', r) /\ spent q' /\
      s1 = (mem_calls (calls_made (h ++ [FPoll e i])) s).1 /\
      match r with PollReady r => GReady r | PollPanics => GPanic end = sees h (FPoll e i) s).
    { rewrite calls_made_snoc, mem_calls_app, <- Hs. cbn [sees call_made].
      destruct (was_polled i h).
      - destruct (poll_spent e s0 q Hq) as (q' & -> & Hsp). by eexists _, _, _.
      - subst q. destruct (poll_new e s0 c) as (q' & Hsp & ->). eexists _, _, _. split; [done|].
        split; [done|]. rewrite Hch'. cbn [from_option]. rewrite mem_calls_one. split; [done|].
        rewrite <- Hs. by destruct ((mem_call e s0 c).2). }
    destruct Hp as (s1 & q' & r & -> & Hsp & Hs1 & Hr).
    destruct (seen_snoc h (FPoll e i) out s _ Hlen Hseen Hr) as [Hlen' Hseen'].
    split; cbn [fl_store fl_objects fl_seen]; [done| | |done|done].
    + by rewrite started_snoc, app_nil_r, insert_length.
    + intros k n' Hs' Hg. rewrite started_snoc, app_nil_r in Hs'.
      rewrite methods_snoc, app_nil_r, was_polled_snoc.
      destruct (decide (k = i)) as [->|Hki].
      * rewrite Hn' in Hs'. injection Hs' as <-. rewrite Nat.eqb_refl, orb_true_r.
        rewrite list_lookup_insert by done. eexists. split; [done|]. unfold fits. rewrite Hch.
        by eexists.
      * replace (k =? i)%nat with false by (symmetry; by apply Nat.eqb_neq).
        rewrite orb_false_r, list_lookup_insert_ne by done. apply Hslot; [done|].
        intros Hg'. apply Hg, gone_snoc. by left.
  - (* drop *)
    destruct Hl as [Hi Hng].
    destruct (seen_snoc h (FDrop i) out s GNothing Hlen Hseen eq_refl) as [Hlen' Hseen'].
    split; cbn [fl_store fl_objects fl_seen]; [| | |done|done].
    + rewrite calls_made_snoc. cbn. by rewrite app_nil_r.
    + by rewrite started_snoc, app_nil_r, insert_length.
    + intros k n' Hs' Hg. rewrite started_snoc, app_nil_r in Hs'.
      rewrite methods_snoc, app_nil_r, was_polled_snoc, orb_false_r.
      assert (k <> i).
      { intros ->. apply Hg, gone_snoc. by right. }
      rewrite list_lookup_insert_ne by done. apply Hslot; [done|].
      intros Hg'. apply Hg, gone_snoc. by left.
Qed.

Lemma c98 (h : list event) (s : store) :
  compiles h ->
  fl_store (fluents h s) = (mem_calls (calls_made h) s).1 /\
  length (fl_seen (fluents h s)) = length h /\
  forall j ev, h !! j = Some ev ->
    fl_seen (fluents h s) !! j = Some (sees (take j h) ev s).
Proof. intros H. by destruct (fluent_ok_all h s H). Qed.
