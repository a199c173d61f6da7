(** Proofs of the engine properties C17 - C31, C34, C35 from the refinement. *)
From Coq Require Import String.
From Verif Require Import Bytes BytesFacts Utf8 Utf8Spec Utf8Facts Float64 FloatFacts Value CommandId
  Request Response RespContext Metrics Prog Commands EngineSpec WireSpec RequestSpec HistorySpec
  RequestFacts RequestProps ResponseFacts ProgFacts CommandFacts SafeFacts EngineFacts.
From stdpp Require Import gmap list.
From Coq Require Import NArith ZArith Lia.
From Coq Require Import ZifyBool ZifyNat ZifyN.

(** ** One dispatch by the specification's answer *)

Section one.
  Context (e : env) (s : store) (req : request) (res : bytes) (c : command_id)
    (kt : option key_type) (l : list bytes).
  Context (He : env_ok e) (Hq : asks req c kt l) (Hr : room s).

  Notation spec := (spec_command (debug e) (engine_stats s) c kt l (st_keys s)).

  Lemma dispatch_val ks v :
    spec = (ks, AVal v) ->
    responds e res v (dispatch e s req res).2 /\
    ((dispatch e s req res).2 <> CPanic -> st_keys (dispatch e s req res).1 = ks).
  Proof.
    destruct Hq as (<- & <- & Hc). intros Hs.
    destruct (dispatch_answered e s req res l He Hc Hr) as [Ha Hk].
    rewrite Hs in *. cbn in *. split; [done|]. intros Hp. apply Hk. done.
  Qed.

  Lemma dispatch_keys ks m :
    spec = (ks, AKeys m) ->
    (exists x, x ≡ₚ elements m /\ responds e res (VList x) (dispatch e s req res).2) /\
    ((dispatch e s req res).2 <> CPanic -> st_keys (dispatch e s req res).1 = ks).
  Proof.
    destruct Hq as (<- & <- & Hc). intros Hs.
    destruct (dispatch_answered e s req res l He Hc Hr) as [Ha Hk].
    rewrite Hs in *. cbn in *. split; [done|]. intros Hp. apply Hk. done.
  Qed.

  Lemma dispatch_err ks err :
    spec = (ks, AErr err) ->
    (dispatch e s req res).2 = CErr err res /\ st_keys (dispatch e s req res).1 = ks.
  Proof.
    destruct Hq as (<- & <- & Hc). intros Hs.
    destruct (dispatch_answered e s req res l He Hc Hr) as [Ha Hk].
    rewrite Hs in *. cbn in *. split; [done|]. apply Hk. rewrite Ha. done.
  Qed.

  Lemma dispatch_crash ks :
    spec = (ks, ACrash) ->
    (dispatch e s req res).2 = CPanic /\ st_keys (dispatch e s req res).1 = ks.
  Proof.
    destruct Hq as (<- & <- & Hc). intros Hs.
    destruct (dispatch_answered e s req res l He Hc Hr) as [Ha Hk].
    rewrite Hs in *. cbn in *. split; [done|]. by apply Hk.
  Qed.
End one.

Lemma ordinary_ok dbg k : ordinary k -> bad_key dbg k = false.
Proof.
  intros [H1 H2]. unfold bad_key. rewrite !bool_decide_false; [by rewrite andb_false_r|done|].
  intros H. apply H2. exists (drop 8 k). rewrite <-H. by rewrite take_drop.
Qed.

Lemma type_or_acts s kt k d t : acts_on s kt k d t -> type_or (st_keys s) kt k d = t.
Proof.
  intros [->|[[-> (v & Hv & <-)]|[-> [Hn ->]]]]; cbn; [done|by rewrite Hv|by rewrite Hn].
Qed.

(** ** C17 *)

Lemma alternate_flatten ps m :
  alternate (flatten_pairs ps) m = fold_left (fun m p => <[p.1 := p.2]> m) ps m.
Proof.
  revert m. induction ps as [|[k v] ps IH]; intros m; [done|]. cbn. apply IH.
Qed.

Lemma fold_insert_nodup (ps : list (bytes * bytes)) (m : gmap bytes bytes) :
  NoDup ps.*1 -> (forall k, k ∈ ps.*1 -> m !! k = None) ->
  fold_left (fun m p => <[p.1 := p.2]> m) ps m = list_to_map ps ∪ m.
Proof.
  revert m. induction ps as [|[k v] ps IH]; intros m Hn Hm; cbn in *.
  - by rewrite (left_id_L (∅ : gmap bytes bytes) (∪)).
  - apply NoDup_cons in Hn as [Hk Hn]. rewrite IH; [|done|].
    + apply map_eq. intros j. rewrite !lookup_union. 
      destruct (decide (j = k)) as [->|Hne].
      * rewrite !lookup_insert. rewrite not_elem_of_list_to_map_1 by done.
        rewrite (Hm k) by (by left). done.
      * by rewrite !lookup_insert_ne by done.
    + intros j Hj. rewrite lookup_insert_ne by (intros ->; done). apply Hm. by right.
Qed.

Lemma spells_value_of v l :
  value_wf v -> spells v l -> l <> [] -> value_of (kind v) l = Some v.
Proof.
  intros Hwf Hs Hl. unfold value_of. destruct l as [|a r] eqn:El; [done|]. rewrite <-El in *.
  destruct v as [x|bs|n|z|items|m|st|str]; cbn in *; rewrite El in Hs.
  - injection Hs as -> ->. by destruct x.
  - injection Hs as -> ->. done.
  - injection Hs as -> ->. unfold arg_float.
    replace (8 <=? length (be_enc 8 n))%nat with true by (by rewrite be_enc_len).
    rewrite take_ge by (by rewrite be_enc_len). cbn. f_equal. f_equal. by apply be8.
  - injection Hs as -> ->. unfold arg_int.
    replace (8 <=? length (i64_enc z))%nat with true by (by rewrite i64_enc_len).
    rewrite take_ge by (by rewrite i64_enc_len). cbn. by rewrite i64_dec_enc.
  - by subst.
  - destruct Hs as (ps & Hps & Hps'). rewrite El, Hps'. f_equal. f_equal.
    rewrite alternate_flatten, fold_insert_nodup.
    + rewrite (right_id_L (∅ : gmap bytes bytes) (∪)).
      rewrite <-(list_to_map_to_list m). apply list_to_map_proper; [|done].
      rewrite Hps. apply NoDup_fst_map_to_list.
    + rewrite Hps. apply NoDup_fst_map_to_list.
    + intros k _. apply lookup_empty.
  - f_equal. f_equal. rewrite El. apply set_eq. intros x. rewrite elem_of_list_to_set, Hs.
    by rewrite elem_of_elements.
  - injection Hs as -> ->. by rewrite Hwf.
Qed.

Lemma c17_set e s req res k v l kt :
  env_ok e -> room s -> ordinary k -> value_wf v -> spells v l -> l <> [] ->
  acts_on s kt k KTBytes (kind v) -> asks req CSet kt (k :: l) ->
  responds e res v (dispatch e s req res).2 /\
  ((dispatch e s req res).2 <> CPanic ->
   st_keys (dispatch e s req res).1 = <[k := v]> (st_keys s)).
Proof.
  intros He Hr Hk Hwf Hs Hl Ha Hq. eapply dispatch_val; [done|done|done|].
  destruct l as [|a l']; [done|]. cbn. unfold spec_set.
  rewrite (type_or_acts _ _ _ _ _ Ha), spells_value_of by done.
  by rewrite ordinary_ok.
Qed.

Lemma c17_get e s req res k v kt :
  env_ok e -> room s -> ordinary k -> st_keys s !! k = Some v ->
  (kt = None \/ kt = Some (kind v)) ->
  (asks req CGet kt [k] -> responds e res v (dispatch e s req res).2) /\
  (asks req CType None [k] ->
   responds e res (VInteger (Z.of_N (key_type_to_u8 (kind v)))) (dispatch e s req res).2) /\
  (asks req CExists None [k] -> responds e res (VBoolean true) (dispatch e s req res).2).
Proof.
  intros He Hr Hk Hv Hkt. split_and!; intros Hq.
  - eapply dispatch_val; [done|done|done|]. cbn. unfold spec_get. rewrite ordinary_ok, Hv by done.
    destruct Hkt as [->| ->]; [done|]. by rewrite decide_True by done.
  - eapply dispatch_val; [done|done|done|]. cbn. by rewrite Hv.
  - eapply dispatch_val; [done|done|done|]. cbn. unfold is_present. by rewrite Hv.
Qed.

Lemma c17 e s req res k v l kt :
  env_ok e -> room s -> ordinary k -> value_wf v -> spells v l -> l <> [] ->
  acts_on s kt k KTBytes (kind v) -> asks req CSet kt (k :: l) ->
  let out := dispatch e s req res in
  responds e res v out.2 /\
  (out.2 <> CPanic ->
   forall e' s' req' res', env_ok e' -> room s' -> st_keys s' = st_keys out.1 ->
   (asks req' CGet None [k] \/ asks req' CGet (Some (kind v)) [k] ->
    responds e' res' v (dispatch e' s' req' res').2) /\
   (asks req' CType None [k] ->
    responds e' res' (VInteger (Z.of_N (key_type_to_u8 (kind v))))
      (dispatch e' s' req' res').2) /\
   (asks req' CExists None [k] ->
    responds e' res' (VBoolean true) (dispatch e' s' req' res').2)).
Proof.
  intros He Hr Hk Hwf Hs Hl Ha Hq out.
  destruct (c17_set e s req res k v l kt) as [H1 H2]; try done. fold out in H1, H2.
  split; [done|]. intros Hp e' s' req' res' He' Hr' Hks. specialize (H2 Hp).
  assert (Hv : st_keys s' !! k = Some v) by (by rewrite Hks, H2, lookup_insert).
  split_and!.
  - intros [Hg|Hg].
    + destruct (c17_get e' s' req' res' k v None) as (H & _ & _); try done; auto.
    + destruct (c17_get e' s' req' res' k v (Some (kind v))) as (H & _ & _); try done; auto.
  - destruct (c17_get e' s' req' res' k v None) as (_ & H & _); try done; auto.
  - destruct (c17_get e' s' req' res' k v None) as (_ & _ & H); try done; auto.
Qed.

(** ** C18, C19, C20: arbitrary requests *)

Lemma dispatch_keys_of e s req res :
  st_keys (dispatch e s req res).1 = st_keys (run (command_prog e req res) s).1.
Proof. rewrite dispatch_run. apply tally_keys. Qed.

Lemma dispatch_touch e s req res k :
  well_typed (st_keys s) -> ~ touched req k ->
  st_keys (dispatch e s req res).1 !! k = st_keys s !! k.
Proof.
  intros Hw Hk. rewrite dispatch_keys_of.
  by apply (safe_run _ _ _ _ s (command_safe e req res)).
Qed.

Lemma c18 e s req res k :
  well_typed (st_keys s) -> ~ names req k ->
  st_keys (dispatch e s req res).1 !! k = st_keys s !! k.
Proof. intros Hw Hk. apply dispatch_touch; [done|]. by intros [_ ?]. Qed.

Lemma c19 e s req res :
  well_typed (st_keys s) -> read_only (r_command req) = true ->
  st_keys (dispatch e s req res).1 = st_keys s.
Proof.
  intros Hw Hr. apply map_eq. intros k. apply dispatch_touch; [done|].
  intros [H _]. congruence.
Qed.

Lemma dispatch_ends e s req res :
  well_typed (st_keys s) ->
  (dispatch e s req res).2 = CPanic /\ debug e = true \/
  ends e req res (dispatch e s req res).2.
Proof.
  intros Hw. rewrite dispatch_run.
  destruct (safe_run _ _ _ _ s (command_safe e req res) Hw) as [He _].
  destruct (run _ s) as [s1 r1]. cbn [fst snd] in *. unfold tally.
  destruct r1 as [b|err b|]; [| |by right].
  - unfold counters_increment, uadd. destruct (_ <? _)%N; [|destruct (debug e)]; cbn; auto.
  - unfold counters_increment, uadd. destruct (_ <? _)%N; [|destruct (debug e)]; cbn; auto.
Qed.

Lemma spec_err_same dbg stats c kt l ks ks' err :
  spec_command dbg stats c kt l ks = (ks', AErr err) ->
  (forall k0 r, (c = CIncrement \/ c = CDecrement) -> kt = Some KTFloat -> l = k0 :: r ->
               is_Some (ks !! k0)) ->
  ks' = ks.
Proof.
  intros H Hf.
  assert (Hai : forall k n, spec_add_int dbg ks k n = (ks', AErr err) -> ks' = ks).
  { intros k n. unfold spec_add_int. destruct (bad_key _ _); [done|].
    destruct (default _ _); try congruence. destruct (decide _); [done|]. by destruct dbg. }
  assert (Haf : forall k x, is_Some (ks !! k) ->
            spec_add_float dbg ks k x = (ks', AErr err) -> ks' = ks).
  { intros k n [v Hv]. unfold spec_add_float. destruct (bad_key _ _); [done|].
    rewrite Hv. destruct v; congruence. }
  destruct c; cbn in H.
  - destruct kt as [[]|]; destruct l as [|k l]; try congruence; try (by eapply Hai).
    eapply Haf; [|done]. eapply Hf; eauto.
  - destruct kt as [[]|]; destruct l as [|k l]; try congruence; try (by eapply Hai).
    eapply Haf; [|done]. eapply Hf; eauto.
  - destruct l as [|k [|a l]]; try congruence. unfold spec_increment_by in H.
    destruct (arg_int a); [by eapply Hai|congruence].
  - destruct l as [|k [|a l]]; try congruence. unfold spec_decrement_by in H.
    destruct (arg_int a); [|congruence]. destruct (decide _); [by eapply Hai|].
    destruct dbg; [congruence|by eapply Hai].
  - destruct l as [|k [|a l]]; try congruence. unfold spec_set in H.
    destruct (value_of _ _); [destruct (bad_key _ _); congruence|congruence].
  - destruct l as [|k l]; try congruence. unfold spec_get in H.
    destruct (bad_key _ _); [congruence|]. destruct (ks !! k); [|congruence].
    destruct kt; [destruct (decide _)|]; congruence.
  - destruct kt as [t|], l as [|k l]; try congruence. destruct (is_present _ _); congruence.
  - destruct kt as [t|], l as [|k l]; congruence.
  - destruct kt as [t|], l as [|k l]; congruence.
  - destruct kt as [t|], l as [|k [|a l]]; try congruence. unfold spec_rename in H.
    destruct (ks !! k), (ks !! a); congruence.
  - destruct kt as [t|], l as [|k l]; try congruence. destruct (ks !! k); congruence.
  - destruct l as [|k l]; try congruence. unfold spec_append in H.
    destruct (type_or _ _ _ _); try congruence;
      (destruct (bad_key _ _); [congruence|]; destruct (default _ _); congruence).
  - destruct l as [|k l]; try congruence.
  - destruct l as [|k l]; try congruence.
  - congruence.
  - destruct kt; congruence.
Qed.

Lemma c20 e s req res l err out :
  env_ok e -> room s -> carries req l ->
  (float_step req -> forall k r, l = k :: r -> is_Some (st_keys s !! k)) ->
  (dispatch e s req res).2 = CErr err out ->
  st_keys (dispatch e s req res).1 = st_keys s /\ out = res.
Proof.
  intros He Hr Hc Hf Ho.
  destruct (dispatch_answered e s req res l He Hc Hr) as [Ha Hk]. cbn zeta in *.
  rewrite Ho in Ha, Hk. destruct (spec_command _ _ _ _ _ _) as [ks a] eqn:Hs. cbn in *.
  destruct a as [v|m|err'|]; cbn in Ha.
  - by apply responds_not_err in Ha.
  - destruct Ha as (x & _ & Ha). by apply responds_not_err in Ha.
  - injection Ha as -> ->. split; [|done]. rewrite Hk by done.
    eapply spec_err_same; [done|]. intros k r Hcmd Hkt Hl. eapply Hf; [by split|done].
  - done.
Qed.

(** ** C21 - C23 *)

Lemma dispatch_left e s req res l :
  env_ok e -> carries req l ->
  let sp := spec_command (debug e) (engine_stats s) (r_command req) (r_key_type req) l (st_keys s) in
  let left := st_keys (dispatch e s req res).1 in
  left = sp.1 \/
  r_command req = CSet /\
  exists k v, arg req 0 = Some k /\ sp = (<[k := v]> (st_keys s), AVal v) /\ left = <[k := emptied v]> (st_keys s).
Proof.
  intros He Hc sp lft. subst lft.
  destruct (dispatch_says e s req res l He Hc) as (s1 & r1 & Hd & _ & Hs).
  fold sp in Hs. rewrite Hd, tally_keys. unfold engine_says in Hs.
  destruct sp as [ks [v|m|err|]]; cbn in *.
  - destruct Hs as (_ & _ & [->|(? & _ & k & ? & -> & ->)]); [by left|]. right. eauto 8.
  - destruct Hs as (? & _ & [= -> _]). by left.
  - injection Hs as -> _. by left.
  - injection Hs as -> _. by left.
Qed.

(** But for Set, what is answered has happened even if the answer could not be written. *)
Lemma dispatch_val_happens e s req res c kt l ks v :
  env_ok e -> asks req c kt l -> room s -> c <> CSet ->
  spec_command (debug e) (engine_stats s) c kt l (st_keys s) = (ks, AVal v) ->
  responds e res v (dispatch e s req res).2 /\
  st_keys (dispatch e s req res).1 = ks.
Proof.
  intros He Hq Hr Hn Hs. split.
  - by destruct (dispatch_val e s req res c kt l He Hq Hr ks v Hs).
  - destruct Hq as (<- & <- & Hc).
    destruct (dispatch_left e s req res l He Hc) as [->|[? _]]; [|done]. by rewrite Hs.
Qed.

Lemma dispatch_val_fits e s req res c kt l ks v :
  env_ok e -> asks req c kt l -> room s -> within_limits (RValue v) ->
  spec_command (debug e) (engine_stats s) c kt l (st_keys s) = (ks, AVal v) ->
  responds e res v (dispatch e s req res).2 /\
  st_keys (dispatch e s req res).1 = ks.
Proof.
  intros He Hq Hr Hl Hs. destruct (dispatch_val e s req res c kt l He Hq Hr ks v Hs) as [H1 H2].
  split; [done|]. apply H2. by eapply responds_no_panic.
Qed.

Lemma arg_int_enc z x : i64_range z -> arg_int (i64_enc z ++ x) = Some z.
Proof.
  intros H. unfold arg_int.
  replace (8 <=? length (i64_enc z ++ x))%nat with true
    by (rewrite app_length, i64_enc_len; lia).
  rewrite <-(i64_enc_len z), take_app. by rewrite i64_dec_enc.
Qed.

Lemma i64_enc_dec a : length a = 8 -> i64_enc (i64_dec a) = a.
Proof.
  intros Hl. unfold i64_enc, i64_dec.
  pose proof (be_dec_lt a) as Hlt. unfold lenN in Hlt. rewrite Hl in Hlt.
  change (256 ^ N.of_nat 8)%N with u64_mod in Hlt.
  replace (u64_of_i64 _) with (be_dec a); [by apply be_enc_dec|].
  unfold u64_of_i64, i64_of_u64, i64_mod, i64_half, u64_mod in *.
  destruct (_ <? _)%Z eqn:E; [rewrite Z.mod_small; lia|].
  replace (Z.of_N (be_dec a) - 18446744073709551616)%Z
    with (Z.of_N (be_dec a) + (-1) * 18446744073709551616)%Z by lia.
  rewrite Z_mod_plus_full, Z.mod_small; lia.
Qed.

Lemma arg_int_some a n :
  arg_int a = Some n -> i64_range n /\ exists x, a = i64_enc n ++ x.
Proof.
  unfold arg_int. destruct (8 <=? length a)%nat eqn:Hl; [|done]. intros [= <-].
  assert (Ht : length (take 8 a) = 8) by (rewrite take_length; lia).
  split; [by apply i64_dec_range|]. exists (drop 8 a). by rewrite i64_enc_dec, take_drop.
Qed.

Lemma spec_changes dbg stats c kt l ks k n :
  changes_int c kt l k n ->
  spec_command dbg stats c kt l ks =
  if decide (i64_range n) then spec_add_int dbg ks k n
  else if dbg then (ks, ACrash) else spec_add_int dbg ks k (i64_wrap n).
Proof.
  intros [(-> & Hkt & [r ->] & ->)|[(-> & Hkt & [r ->] & ->)|(z & x & r & -> & Hz & Hc)]].
  - rewrite decide_True by (by split). cbn. by destruct kt as [[]|].
  - rewrite decide_True by (by split). cbn. by destruct kt as [[]|].
  - destruct Hc as [[-> ->]|[-> ->]]; cbn.
    + rewrite decide_True by done. unfold spec_increment_by. by rewrite arg_int_enc.
    + unfold spec_decrement_by. by rewrite arg_int_enc.
Qed.

Lemma int_at_default s k z : int_at s k z -> default (VInteger 0) (st_keys s !! k) = VInteger z.
Proof. by intros [->|[-> ->]]. Qed.

Lemma c21_exact e s req res c kt l k n z :
  env_ok e -> room s -> asks req c kt l -> changes_int c kt l k n -> ordinary k ->
  int_at s k z -> i64_range n -> i64_range (z + n) ->
  responds e res (VInteger (z + n)) (dispatch e s req res).2 /\
  st_keys (dispatch e s req res).1 = <[k := VInteger (z + n)]> (st_keys s).
Proof.
  intros He Hr Hq Hc Hk Hz Hn Hs. eapply dispatch_val_fits; try done.
  rewrite (spec_changes _ _ _ _ _ _ _ _ Hc), decide_True by done. unfold spec_add_int.
  rewrite ordinary_ok, (int_at_default _ _ _ Hz) by done. by rewrite decide_True.
Qed.

Lemma i64_wrap_add z n : i64_wrap (z + i64_wrap n) = i64_wrap (z + n).
Proof.
  unfold i64_wrap, i64_half, i64_mod.
  pose proof (Z.div_mod (n + 9223372036854775808) 18446744073709551616 ltac:(lia)).
  set (q := ((n + 9223372036854775808) / 18446744073709551616)%Z) in *.
  replace (z + ((n + 9223372036854775808) mod 18446744073709551616 - 9223372036854775808)
           + 9223372036854775808)%Z
    with (z + n + 9223372036854775808 + (- q) * 18446744073709551616)%Z by lia.
  rewrite Z_mod_plus_full. done.
Qed.

Lemma c21_wraps e s req res c kt l k n z :
  env_ok e -> room s -> asks req c kt l -> changes_int c kt l k n -> ordinary k ->
  int_at s k z -> debug e = false ->
  responds e res (VInteger (i64_wrap (z + n))) (dispatch e s req res).2 /\
  st_keys (dispatch e s req res).1 = <[k := VInteger (i64_wrap (z + n))]> (st_keys s).
Proof.
  intros He Hr Hq Hc Hk Hz Hd. eapply dispatch_val_fits; try done.
  rewrite (spec_changes _ _ _ _ _ _ _ _ Hc), Hd.
  assert (Ha : forall m, spec_add_int false (st_keys s) k m =
    (<[k:=VInteger (i64_wrap (z + m))]> (st_keys s), AVal (VInteger (i64_wrap (z + m))))).
  { intros m. unfold spec_add_int. rewrite ordinary_ok, (int_at_default _ _ _ Hz) by done.
    destruct (decide _) as [Hi|]; [|done]. by rewrite i64_wrap_id. }
  destruct (decide _); [done|]. by rewrite Ha, i64_wrap_add.
Qed.

Lemma c21_panics e s req res c kt l k n z :
  env_ok e -> room s -> asks req c kt l -> changes_int c kt l k n -> ordinary k ->
  int_at s k z -> debug e = true -> ~ (i64_range n /\ i64_range (z + n)) ->
  (dispatch e s req res).2 = CPanic /\
  st_keys (dispatch e s req res).1 = st_keys s.
Proof.
  intros He Hr Hq Hc Hk Hz Hd Hn. eapply dispatch_crash; try done.
  rewrite (spec_changes _ _ _ _ _ _ _ _ Hc), Hd. destruct (decide _); [|done].
  unfold spec_add_int. rewrite ordinary_ok, (int_at_default _ _ _ Hz) by done.
  rewrite decide_False by (intros ?; by apply Hn). done.
Qed.

Lemma c21_other e s req res c kt l k n v :
  env_ok e -> room s -> asks req c kt l -> changes_int c kt l k n -> ordinary k ->
  st_keys s !! k = Some v -> kind v <> KTInteger -> (debug e = true -> i64_range n) ->
  (dispatch e s req res).2 = CErr EKeyTypeDifferent res /\
  st_keys (dispatch e s req res).1 = st_keys s.
Proof.
  intros He Hr Hq Hc Hk Hv Hkind Hn. eapply dispatch_err; try done.
  rewrite (spec_changes _ _ _ _ _ _ _ _ Hc).
  assert (Ha : forall m, spec_add_int (debug e) (st_keys s) k m
                         = (st_keys s, AErr EKeyTypeDifferent)).
  { intros m. unfold spec_add_int. rewrite ordinary_ok, Hv by done. by destruct v. }
  destruct (decide _) as [|Hno]; [done|]. destruct (debug e); [by destruct Hno; apply Hn|done].
Qed.

(** Not panicking, the sum is the wrapped one in either build. *)
Lemma c21_any e s req res c kt l k n z :
  env_ok e -> room s -> asks req c kt l -> changes_int c kt l k n -> ordinary k ->
  int_at s k z -> i64_range z -> (dispatch e s req res).2 <> CPanic ->
  st_keys (dispatch e s req res).1 = <[k := VInteger (i64_wrap (z + n))]> (st_keys s).
Proof.
  intros He Hr Hq Hc Hk Hz Hzr Hp. destruct (debug e) eqn:Hd.
  - destruct (i64_range_dec n) as [Hn|Hn].
    + destruct (i64_range_dec (z + n)) as [Hzn|Hzn].
      * rewrite i64_wrap_id by done. by eapply c21_exact.
      * destruct Hp. eapply c21_panics; try done. tauto.
    + destruct Hp. eapply c21_panics; try done. tauto.
  - by eapply c21_wraps.
Qed.

Lemma c21_inverse e s req res c kt l k n z e' s' req' res' c' kt' l' :
  env_ok e -> room s -> asks req c kt l -> changes_int c kt l k n -> ordinary k ->
  st_keys s !! k = Some (VInteger z) -> i64_range z ->
  (dispatch e s req res).2 <> CPanic ->
  env_ok e' -> room s' -> asks req' c' kt' l' -> changes_int c' kt' l' k (- n) ->
  st_keys s' = st_keys (dispatch e s req res).1 ->
  (dispatch e' s' req' res').2 <> CPanic ->
  st_keys (dispatch e' s' req' res').1 = st_keys s.
Proof.
  intros He Hr Hq Hc Hk Hz Hzr Hp He' Hr' Hq' Hc' Hs' Hp'.
  pose proof (c21_any e s req res c kt l k n z He Hr Hq Hc Hk (or_introl Hz) Hzr Hp) as H1.
  rewrite H1 in Hs'.
  assert (Hk' : st_keys s' !! k = Some (VInteger (i64_wrap (z + n))))
    by (by rewrite Hs', lookup_insert).
  pose proof (c21_any e' s' req' res' c' kt' l' k (- n) _ He' Hr' Hq' Hc' Hk (or_introl Hk')
    (i64_wrap_range _) Hp') as H2.
  rewrite H2, Hs', insert_insert.
  replace (i64_wrap (i64_wrap (z + n) + - n)) with z; [by apply insert_id|].
  rewrite Z.add_comm, i64_wrap_add. replace (- n + (z + n))%Z with z by lia.
  by rewrite i64_wrap_id.
Qed.

Lemma c22_float e s req res c k r f x :
  env_ok e -> room s -> asks req c (Some KTFloat) (k :: r) -> float_amount c x ->
  ordinary k -> st_keys s !! k = Some (VFloat f) ->
  responds e res (VFloat (f64_add f x)) (dispatch e s req res).2 /\
  st_keys (dispatch e s req res).1 = <[k := VFloat (f64_add f x)]> (st_keys s).
Proof.
  intros He Hr Hq Hc Hk Hf. eapply dispatch_val_fits; try done.
  destruct Hc as [[-> ->]|[-> ->]]; cbn; unfold spec_add_float; by rewrite ordinary_ok, Hf.
Qed.

Lemma c22_missing e s req res c k r x :
  env_ok e -> room s -> asks req c (Some KTFloat) (k :: r) -> float_amount c x ->
  ordinary k -> st_keys s !! k = None ->
  (dispatch e s req res).2 = CErr EKeyTypeDifferent res /\
  st_keys (dispatch e s req res).1 = <[k := VInteger 0]> (st_keys s).
Proof.
  intros He Hr Hq Hc Hk Hf. eapply dispatch_err; try done.
  destruct Hc as [[-> ->]|[-> ->]]; cbn; unfold spec_add_float; by rewrite ordinary_ok, Hf.
Qed.

Lemma c22_other e s req res c k r x v :
  env_ok e -> room s -> asks req c (Some KTFloat) (k :: r) -> float_amount c x ->
  ordinary k -> st_keys s !! k = Some v -> kind v <> KTFloat ->
  (dispatch e s req res).2 = CErr EKeyTypeDifferent res /\
  st_keys (dispatch e s req res).1 = st_keys s.
Proof.
  intros He Hr Hq Hc Hk Hf Hv. eapply dispatch_err; try done.
  destruct Hc as [[-> ->]|[-> ->]]; cbn; unfold spec_add_float; rewrite ordinary_ok, Hf by done;
    by destruct v.
Qed.

Lemma c23_refused e s req res c kt k f x r :
  env_ok e -> room s -> (c = CIncrementBy \/ c = CDecrementBy) ->
  asks req c kt (k :: be_enc 8 x :: r) -> ordinary k ->
  st_keys s !! k = Some (VFloat f) ->
  st_keys (dispatch e s req res).1 = st_keys s /\
  ((dispatch e s req res).2 = CErr EKeyTypeDifferent res \/
   (debug e = true /\ c = CDecrementBy /\ be_enc 8 x = i64_enc (- i64_half) /\
    (dispatch e s req res).2 = CPanic)).
Proof.
  intros He Hr Hc Hq Hk Hf.
  assert (Ha : exists z, arg_int (be_enc 8 x) = Some z /\ i64_range z /\ be_enc 8 x = i64_enc z).
  { exists (i64_dec (be_enc 8 x)). rewrite i64_enc_dec by apply be_enc_len.
    split_and!; [|apply i64_dec_range, be_enc_len|done]. unfold arg_int.
    replace (8 <=? length (be_enc 8 x))%nat with true by (by rewrite be_enc_len).
    by rewrite take_ge by (by rewrite be_enc_len). }
  destruct Ha as (z & Hz & Hzr & Hze).
  assert (Hai : forall dbg n, spec_add_int dbg (st_keys s) k n
                              = (st_keys s, AErr EKeyTypeDifferent)).
  { intros dbg n. unfold spec_add_int. by rewrite ordinary_ok, Hf. }
  destruct Hc as [-> | ->].
  - destruct (dispatch_err e s req res CIncrementBy kt (k :: be_enc 8 x :: r) He Hq Hr
      (st_keys s) EKeyTypeDifferent) as [H1 H2]; [|by auto].
    cbn. unfold spec_increment_by. by rewrite Hz, Hai.
  - destruct (decide (i64_range (- z))) as [Hn|Hn].
    + destruct (dispatch_err e s req res CDecrementBy kt (k :: be_enc 8 x :: r) He Hq Hr
        (st_keys s) EKeyTypeDifferent) as [H1 H2]; [|by auto].
      cbn. unfold spec_decrement_by. by rewrite Hz, decide_True, Hai.
    + destruct (debug e) eqn:Hd.
      * destruct (dispatch_crash e s req res CDecrementBy kt (k :: be_enc 8 x :: r) He Hq Hr
          (st_keys s)) as [H1 H2].
        { cbn. unfold spec_decrement_by. by rewrite Hz, decide_False, Hd. }
        split; [done|]. right. split_and!; try done. rewrite Hze. f_equal.
        unfold i64_range in *. lia.
      * destruct (dispatch_err e s req res CDecrementBy kt (k :: be_enc 8 x :: r) He Hq Hr
          (st_keys s) EKeyTypeDifferent) as [H1 H2]; [|by auto].
        cbn. unfold spec_decrement_by. by rewrite Hz, decide_False, Hd, Hai.
Qed.

(** ** C24, C25 *)

Lemma filter_valid_all l :
  forallb utf8_valid l = true -> filter (fun a => utf8_valid a = true) l = l.
Proof.
  induction l as [|a l IH]; [done|]. cbn [forallb]. intros [Ha Hl]%andb_prop.
  rewrite filter_cons_True by done. by rewrite IH.
Qed.

Lemma append_base_acts s kt k t v :
  acts_on s kt k KTBytes t -> append_base s k t v ->
  default v (st_keys s !! k) = v.
Proof. by intros _ [_ [->|[-> _]]]. Qed.

Lemma c24_append e s req res kt k l t old new :
  env_ok e -> room s -> asks req CAppend kt (k :: l) -> ordinary k ->
  acts_on s kt k KTBytes t -> append_base s k t old -> append_to old l = Some new ->
  responds e res new (dispatch e s req res).2 /\
  st_keys (dispatch e s req res).1 = <[k := new]> (st_keys s).
Proof.
  intros He Hr Hq Hk Ha Hb Hn. eapply dispatch_val_happens; try done.
  cbn. unfold spec_append. rewrite (type_or_acts _ _ _ _ _ Ha), ordinary_ok by done.
  destruct Hb as [Hkind Hb].
  destruct old as [x|b|f|z|b|m|st|b]; cbn in Hkind; subst t; try done; cbn in Hn.
  - injection Hn as <-. by destruct Hb as [->|[-> [[= ->]|[?|?]]]].
  - injection Hn as <-. by destruct Hb as [->|[-> [?|[[= ->]|?]]]].
  - destruct (forallb utf8_valid l) eqn:Hv; [|done]. injection Hn as <-.
    rewrite filter_valid_all by done. by destruct Hb as [->|[-> [?|[?|[= ->]]]]].
Qed.

Lemma c24_different e s req res kt k l t v :
  env_ok e -> room s -> asks req CAppend kt (k :: l) -> ordinary k ->
  acts_on s kt k KTBytes t -> st_keys s !! k = Some v ->
  (kind v <> t \/ append_to v [] = None) ->
  (dispatch e s req res).2 = CErr EKeyTypeDifferent res /\
  st_keys (dispatch e s req res).1 = st_keys s.
Proof.
  intros He Hr Hq Hk Ha Hv Hd. eapply dispatch_err; try done.
  cbn. unfold spec_append. rewrite (type_or_acts _ _ _ _ _ Ha), ordinary_ok, Hv by done.
  by destruct t, v; cbn in *; try done; destruct Hd.
Qed.

Lemma append_to_app v l1 l2 v1 v2 :
  append_to v l1 = Some v1 -> append_to v1 l2 = Some v2 -> append_to v (l1 ++ l2) = Some v2.
Proof.
  destruct v as [x|b|f|z|b|m|st|b]; cbn; try done.
  - intros [= <-]. cbn. intros [= <-]. by rewrite concat_app, app_assoc.
  - intros [= <-]. cbn. intros [= <-]. by rewrite app_assoc.
  - rewrite forallb_app. destruct (forallb utf8_valid l1); [|done]. intros [= <-]. cbn.
    destruct (forallb utf8_valid l2); [|done]. intros [= <-]. by rewrite concat_app, app_assoc.
Qed.

Lemma append_to_kind v l v' : append_to v l = Some v' -> kind v' = kind v.
Proof.
  destruct v; cbn; try done; try (by intros [= <-]).
  destruct (forallb _ _); [by intros [= <-]|done].
Qed.

Lemma c24_two e s req res kt k l1 l2 t old m new e' s' req' res' kt' e2 req2 res2 :
  env_ok e -> room s -> asks req CAppend kt (k :: l1) -> ordinary k ->
  acts_on s kt k KTBytes t -> append_base s k t old -> append_to old l1 = Some m ->
  env_ok e' -> room s' -> st_keys s' = st_keys (dispatch e s req res).1 ->
  asks req' CAppend kt' (k :: l2) -> (kt' = None \/ kt' = Some t) ->
  append_to m l2 = Some new ->
  env_ok e2 -> asks req2 CAppend kt (k :: l1 ++ l2) ->
  st_keys (dispatch e' s' req' res').1 = st_keys (dispatch e2 s req2 res2).1.
Proof.
  intros He Hr Hq Hk Ha Hb H1 He' Hr' Hs' Hq' Hkt' H2 He2 Hq2.
  destruct (c24_append e s req res kt k l1 t old m) as [_ K1]; try done.
  destruct (c24_append e2 s req2 res2 kt k (l1 ++ l2) t old new) as [_ K2]; try done.
  { by eapply append_to_app. }
  rewrite K1 in Hs'.
  assert (Hkm : kind m = t) by (rewrite (append_to_kind _ _ _ H1); apply Hb).
  destruct (c24_append e' s' req' res' kt' k l2 t m new) as [_ K3]; try done.
  - destruct Hkt' as [-> | ->]; [|by left]. right. left. split; [done|]. exists m.
    by rewrite Hs', lookup_insert.
  - split; [done|]. left. by rewrite Hs', lookup_insert.
  - by rewrite K3, K2, Hs', insert_insert.
Qed.

Lemma c25_drops e s req res kt k l old :
  env_ok e -> room s -> asks req CAppend kt (k :: l) -> ordinary k ->
  acts_on s kt k KTBytes KTString -> append_base s k KTString (VString old) ->
  let new := VString (old ++ concat (filter (fun a => utf8_valid a = true) l)) in
  responds e res new (dispatch e s req res).2 /\
  st_keys (dispatch e s req res).1 = <[k := new]> (st_keys s).
Proof.
  intros He Hr Hq Hk Ha Hb new. eapply dispatch_val_happens; try done.
  cbn. unfold spec_append. rewrite (type_or_acts _ _ _ _ _ Ha), ordinary_ok by done.
  destruct Hb as [_ [->|[-> [?|[?|[= ->]]]]]]; done.
Qed.

(** ** C26 - C28 *)

Lemma c26_present e s req res k r v :
  env_ok e -> room s -> asks req CDelete None (k :: r) -> st_keys s !! k = Some v ->
  responds e res (VBytes k) (dispatch e s req res).2 /\
  st_keys (dispatch e s req res).1 = delete k (st_keys s).
Proof.
  intros He Hr Hq Hv. eapply dispatch_val_happens; try done.
  cbn. unfold is_present. by rewrite Hv.
Qed.

Lemma c26_absent e s req res k r :
  env_ok e -> room s -> asks req CDelete None (k :: r) -> st_keys s !! k = None ->
  (dispatch e s req res).2 = CErr EPreconditionFailed res /\
  st_keys (dispatch e s req res).1 = st_keys s.
Proof.
  intros He Hr Hq Hv. eapply dispatch_err; try done. cbn. unfold is_present. by rewrite Hv.
Qed.

Lemma c27_moves e s req res a b r v :
  env_ok e -> room s -> asks req CRename None (a :: b :: r) ->
  st_keys s !! a = Some v -> st_keys s !! b = None ->
  responds e res (VBytes b) (dispatch e s req res).2 /\
  st_keys (dispatch e s req res).1 = <[b := v]> (delete a (st_keys s)).
Proof.
  intros He Hr Hq Ha Hb. eapply dispatch_val_happens; try done.
  cbn. unfold spec_rename. by rewrite Ha, Hb.
Qed.

Lemma c27_refuses e s req res a b r :
  env_ok e -> room s -> asks req CRename None (a :: b :: r) ->
  (st_keys s !! a = None ->
   (dispatch e s req res).2 = CErr EKeyNonexistent res /\
   st_keys (dispatch e s req res).1 = st_keys s) /\
  (is_Some (st_keys s !! a) -> is_Some (st_keys s !! b) ->
   (dispatch e s req res).2 = CErr EPreconditionFailed res /\
   st_keys (dispatch e s req res).1 = st_keys s).
Proof.
  intros He Hr Hq. split.
  - intros Ha. eapply dispatch_err; try done. cbn. unfold spec_rename. by rewrite Ha.
  - intros [v Ha] [w Hb]. eapply dispatch_err; try done. cbn. unfold spec_rename.
    by rewrite Ha, Hb.
Qed.

Lemma c27_back e s req res a b r v e' s' req' res' r' :
  env_ok e -> room s -> asks req CRename None (a :: b :: r) ->
  st_keys s !! a = Some v -> st_keys s !! b = None ->
  env_ok e' -> room s' -> asks req' CRename None (b :: a :: r') ->
  st_keys s' = st_keys (dispatch e s req res).1 ->
  st_keys (dispatch e' s' req' res').1 = st_keys s.
Proof.
  intros He Hr Hq Ha Hb He' Hr' Hq' Hs'.
  destruct (c27_moves e s req res a b r v) as [_ H1]; try done.
  rewrite H1 in Hs'.
  assert (Hab : a <> b) by (intros ->; congruence).
  destruct (c27_moves e' s' req' res' b a r' v) as [_ H2]; try done.
  - by rewrite Hs', lookup_insert.
  - by rewrite Hs', lookup_insert_ne, lookup_delete by done.
  - rewrite H2, Hs'. rewrite delete_insert.
    + by rewrite insert_delete_insert, insert_id.
    + by rewrite lookup_delete_ne by done.
Qed.

Lemma c28_exists e s req res l :
  env_ok e -> room s -> asks req CExists None l -> l <> [] ->
  exists b, responds e res (VBoolean b) (dispatch e s req res).2 /\
    (b = true <-> forall k, k ∈ l -> is_Some (st_keys s !! k)).
Proof.
  intros He Hr Hq Hl. exists (forallb (is_present (st_keys s)) l). split.
  - destruct (dispatch_val_fits e s req res CExists None l (st_keys s)
      (VBoolean (forallb (is_present (st_keys s)) l))) as [H _]; try done.
    by destruct l.
  - rewrite forallb_forall. apply forall_proper. intros k. rewrite <-elem_of_list_In.
    unfold is_present. destruct (st_keys s !! k).
    + split; [eauto|done].
    + split; intros H Hk; [by specialize (H Hk)|by destruct (H Hk)].
Qed.

Lemma c28_is e s req res l t :
  env_ok e -> room s -> asks req CIs (Some t) l -> l <> [] ->
  exists b, responds e res (VBoolean b) (dispatch e s req res).2 /\
    (b = true <-> forall k, k ∈ l -> exists v, st_keys s !! k = Some v /\ kind v = t).
Proof.
  intros He Hr Hq Hl. exists (forallb (has_kind (st_keys s) t) l). split.
  - destruct (dispatch_val_fits e s req res CIs (Some t) l (st_keys s)
      (VBoolean (forallb (has_kind (st_keys s) t) l))) as [H _]; try done.
    by destruct l.
  - rewrite forallb_forall. apply forall_proper. intros k. rewrite <-elem_of_list_In.
    unfold has_kind. destruct (st_keys s !! k) as [v|].
    + rewrite bool_decide_eq_true. split; [eauto|].
      intros H Hk. by destruct (H Hk) as (? & [= <-] & ?).
    + split; intros H Hk; [by specialize (H Hk)|by destruct (H Hk) as (? & ? & ?)].
Qed.

(** ** C29 - C31 *)

Lemma has_size_of v n : has_size v n -> size_of v = Some n.
Proof.
  destruct v; cbn; try done; try congruence.
  intros (cs & Hs & ->). rewrite <-char_count_spec. by rewrite (chars_count _ _ Hs).
Qed.

Lemma c29_length e s req res kt k r t v n :
  env_ok e -> room s -> asks req CLength kt (k :: r) -> ordinary k ->
  acts_on s kt k KTBytes t -> st_keys s !! k = Some v -> kind v = t -> has_size v n ->
  responds e res (VInteger (Z.of_N n)) (dispatch e s req res).2.
Proof.
  intros He Hr Hq Hk Ha Hv Hkind Hn. eapply dispatch_val; try done.
  cbn. f_equal. unfold spec_length. rewrite (type_or_acts _ _ _ _ _ Ha), ordinary_ok, Hv by done.
  pose proof (has_size_of _ _ Hn) as Hsz. subst t.
  by destruct v; try done; cbn [kind]; rewrite decide_True by done; rewrite Hsz.
Qed.

Lemma c29_always v : value_wf v ->
  (exists n, has_size v n) \/ kind v = KTBoolean \/ kind v = KTFloat \/ kind v = KTInteger.
Proof.
  destruct v; cbn; auto; intros H; left; eauto.
  destruct (valid_chars _ H) as (cs & Hcs). eauto.
Qed.

Lemma c29_errors e s req res kt k r t :
  env_ok e -> room s -> asks req CLength kt (k :: r) -> ordinary k ->
  acts_on s kt k KTBytes t ->
  (t = KTBoolean \/ t = KTFloat \/ t = KTInteger ->
   (dispatch e s req res).2 = CErr EKeyTypeInvalid res) /\
  (t <> KTBoolean -> t <> KTFloat -> t <> KTInteger ->
   (st_keys s !! k = None -> (dispatch e s req res).2 = CErr EKeyNonexistent res) /\
   (forall v, st_keys s !! k = Some v -> kind v <> t ->
    (dispatch e s req res).2 = CErr EKeyTypeDifferent res)).
Proof.
  intros He Hr Hq Hk Ha. pose proof (type_or_acts _ _ _ _ _ Ha) as Ht.
  assert (Hgo : forall err, spec_length (debug e) (st_keys s) kt k = AErr err ->
                (dispatch e s req res).2 = CErr err res).
  { intros err H. eapply dispatch_err; try done. cbn. by rewrite H. }
  unfold spec_length in Hgo. rewrite Ht, ordinary_ok in Hgo by done. split.
  - intros [->|[->| ->]]; by apply Hgo.
  - intros H1 H2 H3. split.
    + intros Hn. apply Hgo. rewrite Hn. by destruct t.
    + intros v Hv Hkind. apply Hgo. rewrite Hv. by destruct t; try done; rewrite decide_False.
Qed.

Lemma c30 e s req res kt k r m :
  env_ok e -> room s -> asks req CKeys kt (k :: r) -> ordinary k ->
  (kt = None \/ kt = Some KTMap) -> st_keys s !! k = Some (VMap m) ->
  exists l, responds e res (VList l) (dispatch e s req res).2 /\ NoDup l /\
    forall x, x ∈ l <-> is_Some (m !! x).
Proof.
  intros He Hr Hq Hk Hkt Hm.
  destruct (dispatch_keys e s req res CKeys kt (k :: r) He Hq Hr (st_keys s) (dom m))
    as [(l & Hl & Hresp) _].
  { cbn. f_equal. unfold spec_keys, type_or. rewrite Hm, ordinary_ok by done.
    by destruct Hkt as [-> | ->]. }
  exists l. split; [done|]. split; [rewrite Hl; apply NoDup_elements|].
  intros x. by rewrite Hl, elem_of_elements, elem_of_dom.
Qed.

Lemma c30_errors e s req res kt k r t :
  env_ok e -> room s -> asks req CKeys kt (k :: r) -> ordinary k ->
  acts_on s kt k KTMap t ->
  (t <> KTMap -> (dispatch e s req res).2 = CErr EKeyTypeInvalid res) /\
  (t = KTMap -> st_keys s !! k = None ->
   (dispatch e s req res).2 = CErr EKeyNonexistent res) /\
  (t = KTMap -> forall v, st_keys s !! k = Some v -> kind v <> KTMap ->
   (dispatch e s req res).2 = CErr EKeyTypeDifferent res).
Proof.
  intros He Hr Hq Hk Ha. pose proof (type_or_acts _ _ _ _ _ Ha) as Ht.
  assert (Hgo : forall err, spec_keys (debug e) (st_keys s) kt k = AErr err ->
                (dispatch e s req res).2 = CErr err res).
  { intros err H. eapply dispatch_err; try done. cbn. by rewrite H. }
  unfold spec_keys in Hgo. rewrite Ht, ordinary_ok in Hgo by done. split_and!.
  - intros Hne. apply Hgo. by destruct t.
  - intros -> Hn. apply Hgo. by rewrite Hn.
  - intros -> v Hv Hkind. apply Hgo. rewrite Hv. by destruct v.
Qed.

Lemma c31 e s req res kt l :
  env_ok e -> room s -> asks req CEcho kt l ->
  responds e res (VList l) (dispatch e s req res).2.
Proof. intros He Hr Hq. by eapply dispatch_val. Qed.

(** ** C34 *)

Lemma c34_release e s req res :
  well_typed (st_keys s) -> debug e = false ->
  (dispatch e s req res).2 = CPanic ->
  guarded_command (r_command req) = true /\ exists k, arg req 0 = Some k /\ reserved k.
Proof.
  intros Hw Hd Hp. destruct (dispatch_ends e s req res Hw) as [[_ H]|H]; [congruence|].
  rewrite Hp in H. cbn in H. destruct H as [H|H]; [congruence|done].
Qed.

Lemma bad_reserved dbg k : reserved k -> bad_key dbg k = true.
Proof.
  intros [r ->]. unfold bad_key. rewrite bool_decide_true; [done|].
  change 8%nat with (length (lit "__hop__:"%string)). by rewrite take_app.
Qed.

Lemma spec_reserved dbg stats c kt l ks k r :
  guarded_command c = true -> l = k :: r -> bad_key dbg k = true ->
  exists a, (spec_command dbg stats c kt l ks).2 = a /\
  match a with AErr _ | ACrash => True | _ => False end.
Proof.
  intros Hg -> Hb. eexists. split; [done|]. 
  destruct c; try done; cbn; unfold spec_add_int, spec_add_float, spec_increment_by,
    spec_decrement_by, spec_set, spec_get, spec_append, spec_length, spec_keys; rewrite ?Hb.
  - by destruct kt as [[]|].
  - by destruct kt as [[]|].
  - destruct r as [|a r]; [done|]. unfold spec_add_int. rewrite Hb. by destruct (arg_int a).
  - destruct r as [|a r]; [done|]. unfold spec_add_int. rewrite Hb.
    destruct (arg_int a); [|done]. destruct (decide _); [done|]. by destruct dbg.
  - destruct r as [|a r]; [done|]. rewrite ?Hb. by destruct (value_of _ _).
  - done.
  - by destruct (type_or _ _ _ _).
  - by destruct (type_or _ _ _ _).
  - by destruct (type_or _ _ _ _).
Qed.

Lemma c34_reserved e s req res c kt k r :
  env_ok e -> room s -> asks req c kt (k :: r) -> guarded_command c = true ->
  (reserved k \/ (debug e = true /\ k = [])) ->
  (dispatch e s req res).2 = CPanic \/ exists err, (dispatch e s req res).2 = CErr err res.
Proof.
  intros He Hr (<- & <- & Hc) Hg Hk.
  destruct (dispatch_answered e s req res (k :: r) He Hc Hr) as [Ha _].
  assert (Hb : bad_key (debug e) k = true).
  { destruct Hk as [Hk|[-> ->]]; [by apply bad_reserved|done]. }
  destruct (spec_reserved (debug e) (engine_stats s) _ (r_key_type req) (k :: r) (st_keys s) k r
    Hg eq_refl Hb) as (a & Hs & Hm).
  rewrite Hs in Ha. destruct a; try done; cbn in Ha; eauto.
Qed.

Lemma spec_crash dbg stats c kt l ks ks' :
  spec_command dbg stats c kt l ks = (ks', ACrash) ->
  (exists k r, l = k :: r /\ guarded_command c = true /\ bad_key dbg k = true) \/
  (dbg = true /\ exists k n, changes_int c kt l k n /\ overflows ks k n).
Proof.
  intros H.
  assert (Hai : forall k n, spec_add_int dbg ks k n = (ks', ACrash) ->
            bad_key dbg k = true \/ (dbg = true /\ overflows ks k n)).
  { intros k n. unfold spec_add_int, overflows. destruct (bad_key dbg k); [auto|].
    destruct (default _ _) as [| | |z| | | |]; try congruence.
    destruct (decide _) as [|Hr]; [congruence|]. destruct dbg; [|congruence].
    intros _. right. eauto. }
  assert (Haf : forall k x, spec_add_float dbg ks k x = (ks', ACrash) -> bad_key dbg k = true).
  { intros k x. unfold spec_add_float. destruct (bad_key dbg k); [done|].
    destruct (ks !! k) as [[]|]; congruence. }
  destruct c; cbn in H.
  - assert (Hc : exists k r, l = k :: r /\ (spec_add_float dbg ks k f64_one = (ks', ACrash) \/
              kt <> Some KTFloat /\ spec_add_int dbg ks k 1 = (ks', ACrash))).
    { destruct kt as [[]|]; destruct l as [|k r]; try congruence; exists k, r; auto. }
    destruct Hc as (k & r & -> & [Hc|[Hf Hc]]).
    + apply Haf in Hc. left; eauto.
    + apply Hai in Hc as [Hc|[-> Ho]]; [left; eauto|].
      right. split; [done|]. exists k, 1%Z. split; [|done]. left. eauto.
  - assert (Hc : exists k r, l = k :: r /\
              (spec_add_float dbg ks k f64_minus_one = (ks', ACrash) \/
               kt <> Some KTFloat /\ spec_add_int dbg ks k (-1) = (ks', ACrash))).
    { destruct kt as [[]|]; destruct l as [|k r]; try congruence; exists k, r; auto. }
    destruct Hc as (k & r & -> & [Hc|[Hf Hc]]).
    + apply Haf in Hc. left; eauto.
    + apply Hai in Hc as [Hc|[-> Ho]]; [left; eauto|].
      right. split; [done|]. exists k, (-1)%Z. split; [|done]. right. left. eauto.
  - destruct l as [|k [|a r]]; try congruence. unfold spec_increment_by in H.
    destruct (arg_int a) as [n|] eqn:Ha; [|congruence].
    apply arg_int_some in Ha as (Hn & x & ->).
    apply Hai in H as [H|[-> Ho]]; [left; eauto|].
    right. split; [done|]. exists k, n. split; [|done]. right. right. exists n, x, r. auto.
  - destruct l as [|k [|a r]]; try congruence. unfold spec_decrement_by in H.
    destruct (arg_int a) as [n|] eqn:Ha; [|congruence].
    apply arg_int_some in Ha as (Hnr & x & ->).
    assert (Hch : changes_int CDecrementBy kt (k :: (i64_enc n ++ x) :: r) k (- n)).
    { right. right. exists n, x, r. auto. }
    destruct (decide (i64_range (- n))) as [Hn|Hn].
    + apply Hai in H as [H|[-> Ho]]; [left; eauto|].
      right. split; [done|]. eauto.
    + destruct dbg.
      * right. split; [done|]. exists k, (- n)%Z. split; [done|]. by left.
      * apply Hai in H as [H|(? & ?)]; [left; eauto|done].
  - destruct l as [|k [|a r]]; try congruence. unfold spec_set in H.
    destruct (value_of _ _); [|congruence]. destruct (bad_key dbg k) eqn:Hb; [left; eauto|congruence].
  - destruct l as [|k r]; try congruence. unfold spec_get in H.
    destruct (bad_key dbg k) eqn:Hb; [left; eauto|]. destruct (ks !! k); [|congruence].
    destruct kt; [destruct (decide _)|]; congruence.
  - destruct kt as [t|], l as [|k r]; try congruence. destruct (is_present _ _); congruence.
  - destruct kt as [t|], l as [|k r]; congruence.
  - destruct kt as [t|], l as [|k r]; congruence.
  - destruct kt as [t|], l as [|k [|a r]]; try congruence. unfold spec_rename in H.
    destruct (ks !! k), (ks !! a); congruence.
  - destruct kt as [t|], l as [|k r]; try congruence. destruct (ks !! k); congruence.
  - destruct l as [|k r]; try congruence. unfold spec_append in H.
    destruct (bad_key dbg k) eqn:Hb; [left; eauto|].
    destruct (type_or _ _ _ _); try congruence; destruct (default _ _); congruence.
  - destruct l as [|k r]; try congruence. unfold spec_length in H.
    destruct (bad_key dbg k) eqn:Hb; [left; eauto|].
    destruct (type_or _ _ _ _); try congruence;
      (destruct (ks !! k) as [v|]; [|congruence]; destruct (decide _); [|congruence];
       destruct (size_of v); congruence).
  - destruct l as [|k r]; try congruence. unfold spec_keys in H.
    destruct (bad_key dbg k) eqn:Hb; [left; eauto|].
    destruct (type_or _ _ _ _); try congruence; destruct (ks !! k) as [[]|]; congruence.
  - congruence.
  - destruct kt; congruence.
Qed.

Lemma bad_key_inv dbg k : bad_key dbg k = true -> reserved k \/ (dbg = true /\ k = []).
Proof.
  unfold bad_key. intros [H|H]%orb_prop.
  - left. apply bool_decide_eq_true in H. exists (drop 8 k). rewrite <-H. by rewrite take_drop.
  - right. apply andb_prop in H as [-> H]. by apply bool_decide_eq_true in H.
Qed.

Lemma c34_debug_stats e s req res c kt l :
  env_ok e -> room s -> asks req c kt l -> (dispatch e s req res).2 = CPanic ->
  (exists k r, l = k :: r /\ guarded_command c = true /\
               (reserved k \/ (debug e = true /\ k = []))) \/
  (debug e = true /\ exists k n, changes_int c kt l k n /\ overflows (st_keys s) k n) \/
  (debug e = true /\
   too_large (spec_command (debug e) (engine_stats s) c kt l (st_keys s)).2).
Proof.
  intros He Hr (<- & <- & Hc) Hp.
  destruct (dispatch_answered e s req res l He Hc Hr) as [Ha _]. cbn zeta in Ha.
  rewrite Hp in Ha. destruct (spec_command _ _ _ _ _ _) as [ks a] eqn:Hs. cbn [fst snd] in *.
  destruct a as [v|m|err|].
  - right. right. destruct Ha as [(? & ? & _)|(Hd & Hn & _)]; [done|]. done.
  - right. right. destruct Ha as (x & Hx & [(? & ? & _)|(Hd & Hn & _)]); [done|].
    split; [done|]. exists x. done.
  - done.
  - destruct (spec_crash _ _ _ _ _ _ _ Hs) as [(k & r & -> & Hg & Hb)|H]; [|by auto].
    left. exists k, r. split_and!; [done|done|]. by apply bad_key_inv.
Qed.

(** The statistics always fit the response format. *)
Definition small_stats (m : gmap bytes bytes) : Prop :=
  map_Forall (fun k v => (lenN k < 32)%N /\ lenN v = 8%N) m.

Lemma small_stats_entry s x m :
  small_stats m -> small_stats (stat_entry s x m) /\ (size (stat_entry s x m) <= S (size m))%nat.
Proof.
  intros Hm. unfold stat_entry. destruct (st_counters s !! x); [|split; [done|lia]].
  destruct (_ <? _)%Z; [|split; [done|lia]]. split.
  - apply map_Forall_insert_2; [|done]. split; [by destruct x; vm_compute|].
    unfold i64_enc. by rewrite be_enc_lenN.
  - destruct (m !! metric_name x) as [y|] eqn:Hy.
    + rewrite map_size_insert_Some by (rewrite Hy; by eexists). lia.
    + rewrite map_size_insert_None by done. lia.
Qed.

Lemma small_stats_fit m : small_stats m -> (size m <= 3)%nat -> within_limits (RValue (VMap m)).
Proof.
  intros H1 H2. unfold within_limits, u16_mod, u32_mod. split_and!.
  - lia.
  - intros k v Hk. apply H1 in Hk as [Hk _]. lia.
  - unfold payload_map. rewrite lenN_app, be_enc_lenN.
    assert (Hb : forall l : list (bytes * bytes), Forall (fun kv => (lenN kv.1 < 32)%N /\ lenN kv.2 = 8%N) l ->
      (lenN (concat (map (fun kv => be_enc 1 (lenN kv.1) ++ kv.1
              ++ be_enc 4 (lenN kv.2) ++ kv.2) l)) <= 50 * lenN l)%N).
    { induction 1 as [|x l [Hx Hx'] Hl IH]; [done|]. cbn [map concat].
      rewrite !lenN_app, !be_enc_lenN, lenN_cons. lia. }
    specialize (Hb (map_to_list m)).
    assert (lenN (map_to_list m) <= 3)%N.
    { unfold lenN, size, map_size in *. lia. }
    enough (lenN (concat (map (fun kv => be_enc 1 (lenN kv.1) ++ kv.1
              ++ be_enc 4 (lenN kv.2) ++ kv.2) (map_to_list m))) <= 50 * 3)%N by lia.
    etransitivity; [apply Hb|lia].
    apply Forall_forall. intros [k v] Hk%elem_of_map_to_list. by apply H1 in Hk.
Qed.

Lemma stats_fit s : within_limits (RValue (VMap (engine_stats s))).
Proof.
  unfold engine_stats.
  destruct (small_stats_entry s MCommandsErrored ∅) as [H1 S1]; [apply map_Forall_empty|].
  destruct (small_stats_entry s MCommandsSuccessful _ H1) as [H2 S2].
  destruct (small_stats_entry s MSessionsStarted _ H2) as [H3 S3].
  rewrite map_size_empty in S1. apply small_stats_fit; [done|lia].
Qed.

Lemma spec_without_stats dbg st st' c kt l ks :
  c <> CStats -> spec_command dbg st c kt l ks = spec_command dbg st' c kt l ks.
Proof. intros Hc. destruct c; try done; cbn; by destruct kt as [[]|], l as [|? [|? ?]]. Qed.

Lemma c34_debug e s req res c kt l :
  env_ok e -> room s -> asks req c kt l -> (dispatch e s req res).2 = CPanic ->
  (exists k r, l = k :: r /\ guarded_command c = true /\
               (reserved k \/ (debug e = true /\ k = []))) \/
  (debug e = true /\ exists k n, changes_int c kt l k n /\ overflows (st_keys s) k n) \/
  (debug e = true /\ c <> CStats /\
   too_large (spec_command (debug e) ∅ c kt l (st_keys s)).2).
Proof.
  intros He Hr Hq Hp.
  destruct (c34_debug_stats e s req res c kt l He Hr Hq Hp) as [H|[H|[Hd H]]]; [by auto..|].
  right. right. split; [done|].
  destruct (decide (c = CStats)) as [->|Hc].
  - exfalso. cbn in H. destruct kt; [done|]. cbn in H. apply H. apply stats_fit.
  - split; [done|]. by rewrite (spec_without_stats _ _ (engine_stats s)).
Qed.

(** ** C35 *)

Lemma c35_unchanged e s req res k :
  well_typed (st_keys s) -> reserved k ->
  r_command req <> CDelete -> r_command req <> CRename -> r_command req <> CSet ->
  st_keys (dispatch e s req res).1 !! k = st_keys s !! k.
Proof.
  intros Hw Hk H1 H2 H3. rewrite dispatch_keys_of.
  assert (Hs : safe (fun x => ~ reserved x) value_wf (fun _ => True) (command_prog e req res)).
  { assert (Hkoi : forall x d u, value_wf d -> (forall v, value_wf v -> value_wf (u v).1) ->
      safe (fun x => ~ reserved x) value_wf (fun _ => True) (key_or_insert_with e x d u)).
    { intros x d u Hd Hu. unfold key_or_insert_with, guarded.
      destruct (starts_with x reserved_prefix) eqn:Hsw; [done|].
      destruct (_ && _); [done|]. cbn. split_and!; [|done|by auto].
      intros Hx%reserved_starts. congruence. }
    assert (Hgr : forall x p, safe (fun x => ~ reserved x) value_wf (fun _ => True) p ->
      safe (fun x => ~ reserved x) value_wf (fun _ => True) (guarded e x p)).
    { intros x p Hp. by apply safe_guarded. }
    assert (Hres : forall x d c, (forall t, safe (fun x => ~ reserved x) value_wf (fun _ => True) (c t)) ->
      safe (fun x => ~ reserved x) value_wf (fun _ => True) (resolve_type req x d c)).
    { intros x d c Hc. unfold resolve_type. destruct (r_key_type req); [done|]. cbn. auto. }
    assert (Hrv : forall A x (as_ : value -> option A) c,
      safe (fun x => ~ reserved x) value_wf (fun _ => True) (read_variant e res x as_ c)).
    { intros A x as_ c. apply Hgr. cbn. intros [v|] _; [|done]. by destruct (as_ v). }
    assert (Hint : forall x n, safe (fun x => ~ reserved x) value_wf (fun _ => True)
      (increment_int_by e x n res)).
    { intros x n. apply Hkoi; [done|]. intros v Hv. unfold with_variant.
      destruct v; try done. cbn. destruct (i64_checked _ _) eqn:Hi; [|done].
      by eapply i64_checked_range. }
    assert (Hfl : forall x n, safe (fun x => ~ reserved x) value_wf (fun _ => True)
      (increment_float_by e x n res)).
    { intros x n. apply Hkoi; [done|]. intros v Hv. unfold with_variant.
      destruct v; try done. cbn. apply f64_add_lt. }
    unfold command_prog. destruct (r_command req) eqn:Hc; try done.
    - unfold cmd_increment. destruct (key req); [|done]. by destruct (wants_float req).
    - unfold cmd_decrement. destruct (key req); [|done]. by destruct (wants_float req).
    - unfold cmd_increment_by. destruct (key req); [|done].
      destruct (typed_arg convert_i64 req 1); [done|]. by destruct (typed_arg convert_f64 req 1).
    - unfold cmd_decrement_by. destruct (key req); [|done].
      destruct (typed_arg convert_i64 req 1); [by destruct (i64_checked _ _)|].
      by destruct (typed_arg convert_f64 req 1).
    - unfold cmd_get. destruct (key req); [|done]. apply Hgr. cbn. intros [v|] _; [|done].
      destruct (r_key_type req); [|done]. by destruct (decide _).
    - unfold cmd_exists. destruct (r_key_type req); [done|]. destruct (args_all req); [|done].
      generalize (arguments_collect a). intros l. induction l as [|x l IH]; [done|]. by intros [].
    - unfold cmd_is. destruct (r_key_type req) as [t|]; [|done]. destruct (args_all req); [|done].
      generalize (arguments_collect a). intros l. induction l as [|x l IH]; [done|]. cbn.
      intros v _. by destruct (match v with Some _ => _ | None => _ end).
    - unfold cmd_type. destruct (key req); [|done]. destruct (r_key_type req); [done|].
      cbn. by intros [v|] _.
    - unfold cmd_append. destruct (arg req 0); [|done]. destruct (args_from req 1); [|done].
      apply Hres. intros []; try done; (apply Hkoi; [done|]; intros v Hv; unfold with_variant;
        destruct v; try done; cbn).
      by apply push_valid_utf8.
    - unfold cmd_length. destruct (key req); [|done]. apply Hres. by intros [].
    - unfold cmd_keys. destruct (key req); [|done]. apply Hres. by intros [].
    - unfold cmd_echo. by destruct (args_all req).
    - unfold cmd_stats. destruct (r_key_type req); [done|].
      generalize (∅ : gmap bytes bytes). generalize stats_counters. intros l.
      induction l as [|x l IH]; intros m; [done|]. cbn.
      intros [n|]; [destruct (_ <? _)%Z|]; apply IH. }
  destruct (safe_run _ _ _ _ s Hs Hw) as (_ & _ & H). apply H. by intros ?.
Qed.

Lemma c35_set e s req res k r kt :
  env_ok e -> room s -> asks req CSet kt (k :: r) -> reserved k ->
  (st_keys (dispatch e s req res).1 = st_keys s /\
   exists err, (dispatch e s req res).2 = CErr err res) \/
  (st_keys (dispatch e s req res).1 = delete k (st_keys s) /\
   (dispatch e s req res).2 = CPanic).
Proof.
  intros He Hr Hq Hk.
  destruct r as [|a r].
  { left. destruct (dispatch_err e s req res CSet kt [k] He Hq Hr (st_keys s) EArgumentRetrieval)
      as [H1 H2]; [done|]. eauto. }
  destruct (value_of (type_or (st_keys s) kt k KTBytes) (a :: r)) as [v|] eqn:Hv.
  - right. destruct (dispatch_crash e s req res CSet kt (k :: a :: r) He Hq Hr
      (delete k (st_keys s))) as [H1 H2]; [|done].
    cbn. unfold spec_set. by rewrite Hv, bad_reserved.
  - left. destruct (dispatch_err e s req res CSet kt (k :: a :: r) He Hq Hr (st_keys s)
      EArgumentRetrieval) as [H1 H2]; [|by eauto].
    cbn. unfold spec_set. by rewrite Hv.
Qed.

(** ** For examples *)

Lemma a_request_asks c kt l :
  is_simple c = false -> (lenN l <= 255)%N -> forallb (fun a => bool_decide (a <> [])) l = true ->
  asks (a_request c kt l) c kt l.
Proof.
  intros Hc Hl Ha. destruct (c01 (env_std false) c kt l Hc Hl) as (b & Hb & Hq).
  { apply Forall_forall. intros a Hi. apply elem_of_list_In in Hi.
    rewrite forallb_forall in Ha. apply Ha in Hi. by apply bool_decide_eq_true in Hi. }
  unfold a_request. rewrite Hb. cbn in Hq. split_and!; try apply Hq.
Qed.

Lemma store_of_room l : room (store_of l).
Proof. intros m. unfold count, store_of. cbn [st_counters]. rewrite lookup_empty. cbn. lia. Qed.

Lemma ordinary_dec k :
  bool_decide (k <> [] /\ take 8 k <> lit "__hop__:"%string) = true -> ordinary k.
Proof.
  intros [? Ht]%bool_decide_eq_true. split; [done|]. intros [r ->]. apply Ht. reflexivity.
Qed.

Lemma c20_false e s req res c k r :
  env_ok e -> room s -> (c = CIncrement \/ c = CDecrement) ->
  asks req c (Some KTFloat) (k :: r) -> ordinary k -> st_keys s !! k = None ->
  (exists err, (dispatch e s req res).2 = CErr err res) /\
  st_keys (dispatch e s req res).1 <> st_keys s.
Proof.
  intros He Hr Hc Hq Ho Hk.
  assert (exists x, float_amount c x) as [x Hx].
  { destruct Hc as [->| ->]; eexists; [left|right]; done. }
  destruct (c22_missing e s req res c k r x He Hr Hq Hx Ho Hk) as [H1 H2].
  split; [by eexists|]. rewrite H2. intros Heq. rewrite <-Heq in Hk.
  by rewrite lookup_insert in Hk.
Qed.

Lemma c22_false e s req res c k r :
  env_ok e -> room s -> (c = CIncrement \/ c = CDecrement) ->
  asks req c (Some KTFloat) (k :: r) -> ordinary k -> st_keys s !! k = None ->
  (dispatch e s req res).2 = CErr EKeyTypeDifferent res /\
  st_keys (dispatch e s req res).1 !! k = Some (VInteger 0).
Proof.
  intros He Hr Hc Hq Ho Hk.
  assert (exists x, float_amount c x) as [x Hx].
  { destruct Hc as [->| ->]; eexists; [left|right]; done. }
  destruct (c22_missing e s req res c k r x He Hr Hq Hx Ho Hk) as [H1 H2].
  split; [done|]. rewrite H2. by rewrite lookup_insert.
Qed.

Lemma c23_false e s req res c kt k f x r :
  env_ok e -> room s -> (c = CIncrementBy \/ c = CDecrementBy) ->
  asks req c kt (k :: be_enc 8 x :: r) -> ordinary k ->
  st_keys s !! k = Some (VFloat f) ->
  is_ok (dispatch e s req res).2 = false.
Proof.
  intros He Hr Hc Hq Ho Hk.
  destruct (c23_refused e s req res c kt k f x r He Hr Hc Hq Ho Hk) as [_ [->|(_&_&_&->)]]; done.
Qed.

Lemma c25_false e s req res kt k l old :
  env_ok e -> room s -> asks req CAppend kt (k :: l) -> ordinary k ->
  acts_on s kt k KTBytes KTString -> append_base s k KTString (VString old) ->
  is_err (dispatch e s req res).2 = false.
Proof.
  intros He Hr Hq Ho Ha Hb.
  destruct (c25_drops e s req res kt k l old He Hr Hq Ho Ha Hb) as [[(msg & -> & _)|(_&_&->)] _]; done.
Qed.

Lemma c26_again e s req res k r v e' s' req' res' r' :
  env_ok e -> room s -> asks req CDelete None (k :: r) -> st_keys s !! k = Some v ->
  env_ok e' -> room s' -> asks req' CDelete None (k :: r') ->
  st_keys s' = st_keys (dispatch e s req res).1 ->
  (dispatch e' s' req' res').2 = CErr EPreconditionFailed res'.
Proof.
  intros He Hr Hq Hk He' Hr' Hq' Hs'.
  destruct (c26_present e s req res k r v He Hr Hq Hk) as [_ H].
  eapply c26_absent; try done. rewrite Hs', H. by rewrite lookup_delete.
Qed.

Lemma c34_always e s req res c kt k r :
  env_ok e -> room s -> asks req c kt (k :: r) ->
  (c = CGet \/ c = CIncrement \/ c = CDecrement) ->
  (reserved k \/ (debug e = true /\ k = [])) ->
  (dispatch e s req res).2 = CPanic.
Proof.
  intros He Hr Hq Hc Hk.
  assert (Hb : bad_key (debug e) k = true).
  { destruct Hk as [Hk|[-> ->]]; [by apply bad_reserved|]. reflexivity. }
  eapply dispatch_crash; [done..|].
  destruct Hc as [->|[->| ->]]; cbn.
  - unfold spec_get. by rewrite Hb.
  - unfold spec_add_int, spec_add_float. rewrite Hb. by destruct kt as [[]|].
  - unfold spec_add_int, spec_add_float. rewrite Hb. by destruct kt as [[]|].
Qed.

Lemma c35_false e s req res k r v :
  env_ok e -> room s -> reserved k -> st_keys s !! k = Some v ->
  (asks req CExists None [k] -> responds e res (VBoolean true) (dispatch e s req res).2) /\
  (asks req CType None [k] ->
   responds e res (VInteger (Z.of_N (key_type_to_u8 (kind v)))) (dispatch e s req res).2) /\
  (asks req CDelete None (k :: r) ->
   st_keys (dispatch e s req res).1 = delete k (st_keys s)) /\
  (forall k', asks req CRename None (k :: k' :: r) -> st_keys s !! k' = None ->
   st_keys (dispatch e s req res).1 !! k' = Some v).
Proof.
  intros He Hr Hk Hv. split_and!.
  - intros Hq. eapply dispatch_val; [done..|]. cbn. unfold is_present. by rewrite Hv.
  - intros Hq. eapply dispatch_val; [done..|]. cbn. by rewrite Hv.
  - intros Hq. by destruct (c26_present e s req res k r v He Hr Hq Hv).
  - intros k' Hq Hn. destruct (c27_moves e s req res k k' r v He Hr Hq Hv Hn) as [_ ->].
    by rewrite lookup_insert.
Qed.

Lemma c35_creates e s req res a k r v :
  env_ok e -> room s -> reserved k -> asks req CRename None (a :: k :: r) ->
  st_keys s !! a = Some v -> st_keys s !! k = None ->
  st_keys (dispatch e s req res).1 !! k = Some v.
Proof.
  intros He Hr Hk Hq Ha Hn. destruct (c27_moves e s req res a k r v He Hr Hq Ha Hn) as [_ ->].
  by rewrite lookup_insert.
Qed.

(** ** What a crash leaves *)

Lemma spec_crash_keeps dbg stats c kt l ks ks' :
  c <> CSet -> spec_command dbg stats c kt l ks = (ks', ACrash) -> ks' = ks.
Proof.
  intros Hc H.
  assert (Hai : forall k n, spec_add_int dbg ks k n = (ks', ACrash) -> ks' = ks).
  { intros k n. unfold spec_add_int. destruct (bad_key dbg k); [congruence|].
    destruct (default _ _) as [| | |z| | | |]; try congruence.
    destruct (decide _) as [|Hr]; [congruence|]. destruct dbg; congruence. }
  assert (Haf : forall k x, spec_add_float dbg ks k x = (ks', ACrash) -> ks' = ks).
  { intros k x. unfold spec_add_float. destruct (bad_key dbg k); [congruence|].
    destruct (ks !! k) as [[]|]; congruence. }
  destruct c; try done; cbn in H;
    destruct kt as [[]|]; destruct l as [|k [|a l]]; cbn in H; try congruence; eauto;
    unfold spec_append, spec_get, spec_increment_by, spec_decrement_by, spec_rename in H;
    repeat (match type of H with context [match ?x with _ => _ end] => destruct x eqn:? end;
      try congruence; eauto).
Qed.

Lemma spec_command_stats dbg stats stats' c kt l ks :
  (spec_command dbg stats c kt l ks).1 = (spec_command dbg stats' c kt l ks).1 /\
  ((spec_command dbg stats c kt l ks).2 = ACrash <-> (spec_command dbg stats' c kt l ks).2 = ACrash).
Proof. destruct c; try done. by destruct kt. Qed.

Lemma c72_all_or_nothing e s req res l stats :
  env_ok e -> carries req l -> r_command req <> CSet -> (dispatch e s req res).2 = CPanic ->
  let '(ks, a) := spec_command (debug e) stats (r_command req) (r_key_type req) l (st_keys s) in
  let left := st_keys (dispatch e s req res).1 in
  left = st_keys s \/ (a <> ACrash /\ left = ks).
Proof.
  intros He Hc Hn _.
  destruct (spec_command_stats (debug e) (engine_stats s) stats (r_command req) (r_key_type req) l
    (st_keys s)) as [H1 H2].
  destruct (dispatch_left e s req res l He Hc) as [Hl|(H & _)]; [|done].
  rewrite H1 in Hl. destruct (spec_command _ stats _ _ _ _) as [ks a] eqn:E. cbn in Hl. cbn. rewrite Hl.
  destruct a; [by right..|]. left. by eapply spec_crash_keeps.
Qed.

Lemma c72_set e s req res k l kt :
  env_ok e -> room s -> asks req CSet kt (k :: l) -> (dispatch e s req res).2 = CPanic ->
  exists v, value_of (type_or (st_keys s) kt k KTBytes) l = Some v /\
  let left := st_keys (dispatch e s req res).1 in
  (left = delete k (st_keys s) /\ bad_key (debug e) k = true) \/
  (left = <[k := v]> (st_keys s) /\ debug e = true) \/
  (left = <[k := emptied v]> (st_keys s) /\ debug e = true).
Proof.
  intros He Hr (Hq & <- & Hc) Hp.
  destruct (dispatch_answered e s req res (k :: l) He Hc Hr) as [Ha _].
  pose proof (dispatch_left e s req res (k :: l) He Hc) as H. cbn in H. rewrite Hq in *.
  cbn in *. destruct l as [|a l]; [cbn in Ha; congruence|].
  unfold spec_set in *. destruct (value_of _ _) as [v|] eqn:E; [|cbn in Ha; congruence].
  exists v. split; [done|]. destruct (bad_key _ _).
  - left. destruct H as [->|(_ & ? & ? & _ & ? & _)]; [done|congruence].
  - right. assert (debug e = true).
    { cbn in Ha. destruct Ha as [(?&?&_)|(?&_&_)]; congruence. }
    destruct H as [->|(_ & k' & v' & Hk & Hv & ->)]; [by left|]. right.
    assert (k' = k) as -> by (destruct Hc as [_ Hc]; specialize (Hc 0%N);
      change (arg req 0 = Some k) in Hc; congruence).
    injection Hv as _ ->. done.
Qed.

Lemma c72_loses e s req res k l kt v v' :
  env_ok e -> room s -> asks req CSet kt (k :: l) -> reserved k ->
  value_of (type_or (st_keys s) kt k KTBytes) l = Some v' -> st_keys s !! k = Some v ->
  (dispatch e s req res).2 = CPanic /\ st_keys (dispatch e s req res).1 !! k = None.
Proof.
  intros He Hr (Hq & <- & Hc) Hk Hv Hs.
  destruct (dispatch_answered e s req res (k :: l) He Hc Hr) as [Ha _].
  pose proof (dispatch_left e s req res (k :: l) He Hc) as H. cbn in H. rewrite Hq in *.
  destruct l as [|a l]; [done|]. cbn in H, Ha. unfold spec_set in *. rewrite Hv in *.
  rewrite (bad_reserved (debug e) k Hk) in *. split; [done|].
  destruct H as [->|(_ & ? & ? & _ & ? & _)]; [apply lookup_delete|congruence].
Qed.

Lemma c72_half e s req res k l t :
  env_ok e -> room s -> asks req CSet (Some t) (k :: l) -> ordinary k ->
  t = KTMap \/ t = KTSet -> (dispatch e s req res).2 = CPanic ->
  st_keys (dispatch e s req res).1 = <[k := if decide (t = KTMap) then VMap ∅ else VSet ∅]> (st_keys s).
Proof.
  intros He Hr (Hq & Hkt & Hc) [Hk0 Hk] Ht. rewrite dispatch_run, tally_keys. unfold command_prog.
  rewrite Hq. unfold cmd_set. destruct l as [|a l].
  { destruct (spec_key_some req _ k [] Hq) as (-> & _ & -> & _); [done..|]. by rewrite tally_snd. }
  destruct (spec_key_some req _ k (a :: l) Hq) as (-> & _ & -> & Hargs & Hcol); [done..|]. cbn [head].
  rewrite run_resolve, Hkt. cbn [type_or]. unfold set_typed.
  assert (Hb : bad_key (debug e) k = false).
  { by apply ordinary_ok. }
  assert (Hgen : forall {A} dflt (as_ : value -> option A) v a0,
    as_ dflt = Some a0 ->
    (tally e (run (set_with e res k dflt as_ v true (write_value e res v)) s).1
       (run (set_with e res k dflt as_ v true (write_value e res v)) s).2).2 = CPanic ->
    st_keys (run (set_with e res k dflt as_ v true (write_value e res v)) s).1
    = <[k := dflt]> (st_keys s)).
  { intros A dflt as_ v a0 Ha. rewrite (run_set_with e s res k dflt as_ v true _ a0 Ha), Hb.
    rewrite tally_snd by exact Hr. cbn. by destruct (write_value e res v). }
  destruct Ht as [-> | ->]; unfold typed_args; rewrite Hargs.
  - apply (Hgen _ _ _ (VMap _) ∅). done.
  - apply (Hgen _ _ _ (VSet _) ∅). done.
Qed.

Lemma c72_half_happens e s k v res :
  env_ok e -> room s -> debug e = true -> ordinary k -> lenN v = (2 ^ 32 - 1)%N ->
  let req := a_request CSet (Some KTMap) [k; lit "x"; v] in
  asks req CSet (Some KTMap) [k; lit "x"; v] /\ (dispatch e s req res).2 = CPanic.
Proof.
  intros He Hr Hd Hk Hv req.
  assert (Hq : asks req CSet (Some KTMap) [k; lit "x"; v]).
  { apply a_request_asks; [done|by compute|]. destruct Hk as [Hk _].
    cbn [forallb]. rewrite !bool_decide_eq_true_2; [done|..|done|done]. by intros ->. }
  split; [done|].
  destruct (dispatch_says e s req res _ He (proj2 (proj2 Hq))) as (s1 & r1 & -> & Hcs & Hs).
  destruct Hq as (Hq & Hkt & _). rewrite Hq, Hkt in Hs. cbn in Hs. unfold spec_set in Hs.
  rewrite ordinary_ok in Hs by done. destruct Hs as (_ & Hr1 & _). cbn [fst snd] in Hr1. rewrite Hr1.
  rewrite tally_snd by (by eapply room_counters). cbn [copy_to write_value]. unfold write_map.
  assert (Hm : map_iter e {[lit "x" := v]} = [(lit "x", v)]).
  { apply Permutation_singleton_r. rewrite (proj1 He). by rewrite map_to_list_singleton. }
  change (map_iter e _) with (map_iter e {[lit "x" := v]}).
  rewrite Hm. cbn [map_len_loop]. rewrite Hd.
  replace (as_u32 (lenN v)) with (2 ^ 32 - 1)%N by (by rewrite Hv). done.
Qed.
