(** What programs can do to the store, whatever they read from it. *)
From Verif Require Import Bytes BytesFacts Utf8 Float64 FloatFacts Value CommandId Request
  Response Metrics Prog Commands ResponseFacts.
From stdpp Require Import gmap list.
From Coq Require Import NArith ZArith Lia.
From Coq Require Import ZifyBool ZifyNat ZifyN.

(** ** Small steps and runs *)

Inductive psteps : prog -> store -> prog -> store -> Prop :=
| psteps_refl p s : psteps p s p s
| psteps_step p s p' s' p'' s'' :
  pstep p s = Some (p', s') -> psteps p' s' p'' s'' -> psteps p s p'' s''.

Lemma psteps_one p s p' s' : pstep p s = Some (p', s') -> psteps p s p' s'.
Proof. intros H. eapply psteps_step; [done|apply psteps_refl]. Qed.

Lemma psteps_trans p1 s1 p2 s2 p3 s3 :
  psteps p1 s1 p2 s2 -> psteps p2 s2 p3 s3 -> psteps p1 s1 p3 s3.
Proof. induction 1; [done|]. intros. eapply psteps_step; eauto. Qed.

(** A step does not change what a program run alone does. *)
Lemma run_pstep p s p' s' : pstep p s = Some (p', s') -> run p' s' = run p s.
Proof.
  destruct p as [r|k c|k c|k v c|k c|k d u c|k d u c|m c|dbg m c]; cbn; try congruence.
  - destruct (st_keys s !! k) as [v|] eqn:Hk; cbn.
    + destruct (u v) as [v' r]. intros [= <- <-]. done.
    + intros [= <- <-]. cbn. done.
  - intros [= <- <-]. cbn. rewrite lookup_insert. cbn.
    destruct (u d) as [v' r]. f_equal. unfold with_keys. cbn. by rewrite insert_insert.
  - destruct (counters_increment _ _ _); intros [= <- <-]; done.
Qed.

(** The sequential semantics is the small-step one iterated. *)
Lemma run_psteps p s : exists r, psteps p s (PRet r) (run p s).1 /\ r = (run p s).2.
Proof.
  revert s. induction p as [r|k c IH|k c IH|k v c IH|k c IH|k d u c IH|k d u c IH|m c IH|dbg m c IH];
    intros s; cbn.
  - exists r. split; [apply psteps_refl|done].
  - edestruct IH as (r & H & ->). eexists. split; [|done]. eapply psteps_step; [done|]. apply H.
  - edestruct IH as (r & H & ->). eexists. split; [|done]. eapply psteps_step; [done|]. apply H.
  - edestruct IH as (r & H & ->). eexists. split; [|done]. eapply psteps_step; [done|]. apply H.
  - edestruct IH as (r & H & ->). eexists. split; [|done]. eapply psteps_step; [done|]. apply H.
  - destruct (st_keys s !! k) as [v|] eqn:Hk; cbn.
    + destruct (u v) as [v' r'] eqn:Hu. edestruct (IH r') as (r & H & ->).
      eexists. split; [|done]. eapply psteps_step; [cbn; rewrite Hk, Hu; done|]. apply H.
    + destruct (u d) as [v' r'] eqn:Hu. edestruct (IH r') as (r & H & ->).
      eexists. split; [|done]. eapply psteps_step; [cbn; rewrite Hk; done|].
      eapply psteps_step; [done|]. eapply psteps_step.
      { cbn. rewrite lookup_insert, Hu. done. }
      unfold with_keys in *. cbn. rewrite insert_insert. apply H.
  - destruct (u d) as [v' r'] eqn:Hu. edestruct (IH r') as (r & H & ->).
    eexists. split; [|done]. eapply psteps_step; [done|]. eapply psteps_step.
    { cbn. rewrite lookup_insert, Hu. done. }
    unfold with_keys in *. cbn. rewrite insert_insert. apply H.
  - edestruct IH as (r & H & ->). eexists. split; [|done]. eapply psteps_step; [done|]. apply H.
  - destruct (counters_increment dbg (st_counters s) m) as [cs|] eqn:Hc.
    + edestruct IH as (r & H & ->). eexists. split; [|done].
      eapply psteps_step; [cbn; rewrite Hc; done|]. apply H.
    + exists CPanic. split; [|done]. apply psteps_one. cbn. by rewrite Hc.
Qed.

(** ** Programs that write only some keys, write only some values, and answer only
    some outcomes, provided the values they read are of that sort *)

Section safe.
  Context (K : bytes -> Prop) (V : value -> Prop) (R : cres -> Prop).

  Definition opt_ok (v : option value) : Prop := forall x, v = Some x -> V x.

  Fixpoint safe (p : prog) : Prop :=
    match p with
    | PRet r => R r
    | PContains k c => forall b, safe (c b)
    | PGet k c => forall v, opt_ok v -> safe (c v)
    | PInsert k v c => K k /\ V v /\ safe c
    | PRemove k c => K k /\ forall v, opt_ok v -> safe (c v)
    | PKoi k d u c | PKoiIns k d u c =>
      K k /\ V d /\ forall v, V v -> V (u v).1 /\ safe (c (u v).2)
    | PCounter m c => forall n, safe (c n)
    | PIncr dbg m c => (dbg = true -> R CPanic) /\ safe c
    end.

  Definition keys_ok (s : store) : Prop := forall k v, st_keys s !! k = Some v -> V v.

  Lemma keys_ok_opt s k : keys_ok s -> opt_ok (st_keys s !! k).
  Proof. intros H x Hx. by eapply H. Qed.

  Lemma keys_ok_insert s k v :
    keys_ok s -> V v -> keys_ok (with_keys s (<[k := v]> (st_keys s))).
  Proof.
    intros H Hv k' v'. cbn. destruct (decide (k' = k)) as [->|Hne].
    - rewrite lookup_insert. by intros [= <-].
    - rewrite lookup_insert_ne by done. apply H.
  Qed.

  Lemma keys_ok_delete s k : keys_ok s -> keys_ok (with_keys s (delete k (st_keys s))).
  Proof. intros H k' v'. cbn. rewrite lookup_delete_Some. intros [_ ?]. by eapply H. Qed.

  (** One step of a safe program. *)
  Lemma safe_pstep p s p' s' :
    safe p -> keys_ok s -> pstep p s = Some (p', s') ->
    safe p' /\ keys_ok s' /\ forall k, ~ K k -> st_keys s' !! k = st_keys s !! k.
  Proof.
    intros Hp Hs. destruct p as [r|k c|k c|k v c|k c|k d u c|k d u c|m c|dbg m c]; cbn in *.
    - congruence.
    - intros [= <- <-]. auto.
    - intros [= <- <-]. split; [|done]. by apply Hp, keys_ok_opt.
    - intros [= <- <-]. destruct Hp as (Hk & Hv & Hc). split; [done|].
      split; [by apply keys_ok_insert|]. intros k' Hk'. cbn.
      apply lookup_insert_ne. by intros ->.
    - intros [= <- <-]. destruct Hp as (Hk & Hc). split; [by apply Hc, keys_ok_opt|].
      split; [by apply keys_ok_delete|]. intros k' Hk'. cbn.
      apply lookup_delete_ne. by intros ->.
    - destruct Hp as (Hk & Hd & Hu). destruct (st_keys s !! k) as [v|] eqn:Hlk.
      + destruct (Hu v) as [Hv Hc]; [by eapply Hs|]. destruct (u v) as [v' r].
        intros [= <- <-]. split; [done|]. split; [by apply keys_ok_insert|].
        intros k' Hk'. cbn. apply lookup_insert_ne. by intros ->.
      + intros [= <- <-]. done.
    - destruct Hp as (Hk & Hd & Hu). intros [= <- <-]. split; [done|].
      split; [by apply keys_ok_insert|].
      intros k' Hk'. cbn. apply lookup_insert_ne. by intros ->.
    - intros [= <- <-]. auto.
    - destruct Hp as [HR Hc]. unfold counters_increment, uadd in *.
      destruct (_ <? _)%N; [|destruct dbg]; cbn in *; intros [= <- <-]; cbn; auto.
  Qed.

  Lemma safe_psteps p s p' s' :
    psteps p s p' s' -> safe p -> keys_ok s ->
    safe p' /\ keys_ok s' /\ forall k, ~ K k -> st_keys s' !! k = st_keys s !! k.
  Proof.
    induction 1 as [|p s p' s' p'' s'' Hs _ IH]; [done|]. intros Hp Hk.
    destruct (safe_pstep _ _ _ _ Hp Hk Hs) as (Hp' & Hk' & Hf).
    destruct (IH Hp' Hk') as (H1 & H2 & H3). split; [done|]. split; [done|].
    intros k Hn. by rewrite H3, Hf.
  Qed.

  Lemma safe_run p s :
    safe p -> keys_ok s ->
    R (run p s).2 /\ keys_ok (run p s).1 /\
    forall k, ~ K k -> st_keys (run p s).1 !! k = st_keys s !! k.
  Proof.
    intros Hp Hs. destruct (run_psteps p s) as (r & H & ->).
    by apply (safe_psteps _ _ _ _ H).
  Qed.

  Lemma safe_guarded e k p :
    safe p -> (starts_with k reserved_prefix = true \/ debug e = true -> R CPanic) ->
    safe (guarded e k p).
  Proof.
    intros Hp HR. unfold guarded. destruct (starts_with _ _) eqn:E; [cbn; auto|].
    destruct (debug e) eqn:Ed; cbn; [|done]. destruct (_ =? _)%N; cbn; auto.
  Qed.
End safe.

(** ** UTF-8 *)

Lemma utf8_ind (P : bytes -> Prop) :
  (forall l, (forall l', (length l' < length l)%nat -> P l') -> P l) -> forall l, P l.
Proof.
  intros H l. assert (Hn : forall n l, (length l < n)%nat -> P l).
  { induction n as [|n IH]; intros l' Hl; [lia|]. apply H. intros l'' Hl''. apply IH. lia. }
  eapply Hn. apply Nat.lt_succ_diag_r.
Qed.

Lemma utf8_app a b : utf8_valid a = true -> utf8_valid b = true -> utf8_valid (a ++ b) = true.
Proof.
  intros Ha Hb. revert Ha. induction a as [a IH] using utf8_ind.
  destruct a as [|b0 r0]; [done|]. cbn [utf8_valid app].
  destruct (in_range 0 127 b0); [apply IH; cbn; lia|].
  destruct (in_range 194 223 b0).
  { destruct r0 as [|b1 r1]; [done|]. cbn [app]. destruct (is_cont b1); cbn [andb]; [|done].
    apply IH; cbn; lia. }
  destruct (in_range 224 239 b0).
  { destruct r0 as [|b1 [|b2 r2]]; [done|done|]. cbn [app].
    destruct (if in_range 224 224 b0 then _ else _); cbn [andb]; [|done].
    destruct (is_cont b2); cbn [andb]; [|done]. apply IH; cbn; lia. }
  destruct (in_range 240 244 b0); [|done].
  destruct r0 as [|b1 [|b2 [|b3 r3]]]; [done|done|done|]. cbn [app].
  destruct (if in_range 240 240 b0 then _ else _); cbn [andb]; [|done].
  destruct (is_cont b2); cbn [andb]; [|done].
  destruct (is_cont b3); cbn [andb]; [|done]. apply IH; cbn; lia.
Qed.

Lemma push_valid_utf8 s l : utf8_valid s = true -> utf8_valid (push_valid s l) = true.
Proof.
  unfold push_valid. revert s. induction l as [|a l IH]; intros s Hs; cbn; [done|].
  apply IH. unfold from_utf8. destruct (utf8_valid a) eqn:Ha; [|done]. by apply utf8_app.
Qed.

(** ** Writing a response only appends *)

Lemma patch_app_ge to x i src :
  (lenN to <= i)%N -> exists y, patch (to ++ x) i src = to ++ y.
Proof.
  intros H. unfold patch. rewrite take_app_ge by (unfold lenN in H; lia).
  rewrite <-app_assoc. eauto.
Qed.

Lemma write_list_loop_app dbg to n c l to' n' c' :
  write_list_loop dbg to n c l = Ok (to', n', c') -> exists x, to' = to ++ x.
Proof.
  revert to n c. induction l as [|a l IH]; intros to n c; cbn.
  - intros [= <- _ _]. exists []. by rewrite app_nil_r.
  - destruct (uadd _ _ _ _) as [?|]; cbn; [|done].
    destruct (u32_add _ 4 _) as [?|]; cbn; [|done].
    destruct (u32_add _ n _) as [?|]; cbn; [|done].
    intros H. destruct (IH _ _ _ H) as [x ->]. rewrite <-app_assoc. eauto.
Qed.

Lemma write_list_app e to l b : write_list e to l = Ok b -> exists x, b = to ++ x.
Proof.
  unfold write_list. destruct (write_list_loop _ _ _ _ _) as [[[to' n'] c']|] eqn:H; cbn; [|done].
  destruct (write_list_loop_app _ _ _ _ _ _ _ _ H) as [x ->]. intros [= <-].
  rewrite <-!app_assoc. edestruct (patch_app_ge to) as [y ->]; [reflexivity|].
  apply patch_app_ge. lia.
Qed.

Lemma write_value_app e to v b : write_value e to v = Ok b -> exists x, b = to ++ x.
Proof.
  destruct v as [x|bs|n|z|l|m|st|str]; cbn;
    try (intros [= <-]; unfold write_bool, write_float, write_int; eauto; fail).
  - unfold write_bytes. destruct (u32_add _ _ _); cbn; [|done]. intros [= <-]. eauto.
  - apply write_list_app.
  - unfold write_map. destruct (map_len_loop _ _ _); cbn; [|done]. intros [= <-]. eauto.
  - unfold write_set. destruct (set_len_loop _ _ _); cbn; [|done]. intros [= <-]. eauto.
  - unfold write_str. destruct (u32_add _ _ _); cbn; [|done]. intros [= <-]. eauto.
Qed.

(** ** Writing never panics in a release build *)

Lemma u32_add_release a b : exists c, u32_add false a b = Ok c.
Proof. unfold u32_add, uadd. destruct (_ <? _)%N; eauto. Qed.

Lemma uadd_release m a b : exists c, uadd m false a b = Ok c.
Proof. unfold uadd. destruct (_ <? _)%N; eauto. Qed.

Lemma write_list_loop_release to n c l : exists r, write_list_loop false to n c l = Ok r.
Proof.
  revert to n c. induction l as [|x l IH]; intros to n c; cbn; [eauto|].
  destruct (uadd_release u16_mod c 1) as [? ->]. cbn.
  destruct (u32_add_release 4 (as_u32 (lenN x))) as [? ->]. cbn.
  edestruct u32_add_release as [? ->]. cbn. apply IH.
Qed.

Lemma map_len_loop_release n l : exists r, map_len_loop false n l = Ok r.
Proof.
  revert n. induction l as [|[k v] l IH]; intros n; cbn; [eauto|].
  destruct (u32_add_release 1 (as_u32 (lenN k))) as [? ->]. cbn.
  edestruct u32_add_release as [? ->]. cbn.
  edestruct u32_add_release as [? ->]. cbn.
  edestruct u32_add_release as [? ->]. cbn. apply IH.
Qed.

Lemma set_len_loop_release n l : exists r, set_len_loop false n l = Ok r.
Proof.
  revert n. induction l as [|x l IH]; intros n; cbn; [eauto|].
  destruct (u32_add_release 2 (as_u32 (lenN x))) as [? ->]. cbn.
  edestruct u32_add_release as [? ->]. cbn. apply IH.
Qed.

Lemma copy_to_release e r to : debug e = false -> exists b, copy_to e r to = Ok b.
Proof.
  intros Hd. destruct r as [err|err|v]; cbn; [eauto|eauto|].
  destruct v as [x|bs|n|z|l|m|st|str]; cbn; eauto.
  - unfold write_bytes. rewrite Hd. edestruct u32_add_release as [? ->]. cbn. eauto.
  - unfold write_list. rewrite Hd. edestruct write_list_loop_release as [[[??]?] ->]. cbn. eauto.
  - unfold write_map. rewrite Hd. edestruct map_len_loop_release as [? ->]. cbn. eauto.
  - unfold write_set. rewrite Hd. edestruct set_len_loop_release as [? ->]. cbn. eauto.
  - unfold write_str. rewrite Hd. edestruct u32_add_release as [? ->]. cbn. eauto.
Qed.

