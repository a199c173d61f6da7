(** Histories: refinement (C32), well-typedness (C33) and statistics (C36). *)
From Coq Require Import String.
From Verif Require Import Bytes BytesFacts Utf8 Float64 FloatFacts Value CommandId Request Response
  RespContext Metrics Session Prog Commands EngineSpec WireSpec RequestSpec HistorySpec
  RequestFacts ResponseFacts ProgFacts CommandFacts SafeFacts EngineFacts EngineProps.
From stdpp Require Import gmap list.
From Coq Require Import NArith ZArith Lia.
From Coq Require Import ZifyBool ZifyNat ZifyN.

(** ** C32 *)

Lemma answered_unexplained e res a cr :
  answered e res a cr -> (debug e = true -> ~ too_large a) -> ~ unexplained cr a.
Proof.
  intros Ha Hb [-> Hn]. destruct a as [v|m|err|]; cbn in *; try done.
  - destruct Ha as [(? & ? & _)|(Hd & Hl & _)]; [done|]. by apply (Hb Hd).
  - destruct Ha as (l & Hl & [(? & ? & _)|(Hd & Hn' & _)]); [done|].
    apply (Hb Hd). by exists l.
Qed.

Lemma refines h args : forall s sp,
  Forall2 (fun c l => env_ok (c_env c) /\ carries (c_req c) l) h args ->
  st_keys s = sp_keys sp -> tracks s sp -> (grand_total sp + lenN h < 2 ^ 63)%N ->
  Forall2 (fun c a => debug (c_env c) = true -> ~ too_large a) h (spec_calls h args sp).2 ->
  st_keys (run_calls h s).1 = sp_keys (spec_calls h args sp).1 /\
  Forall3 (fun c a r => answered (c_env c) (c_res c) a r)
    h (spec_calls h args sp).2 (run_calls h s).2.
Proof.
  revert args. induction h as [|c h IH]; intros args s sp Ha Hk Ht Hb Hf.
  - inversion Ha; subst. split; [done|constructor].
  - inversion Ha as [|? l ? args' [He Hc] Ha']; subst. rewrite lenN_cons in Hb.
    destruct (dispatch_spec (c_env c) s (c_req c) (c_res c) l sp He Hc Hk Ht)
      as (H1 & H2 & H3); [lia|].
    cbn [run_calls spec_calls] in *.
    destruct (spec_dispatch _ _ _ _ sp) as [sp' a]. destruct (dispatch _ _ _ _) as [s' r].
    cbn [fst snd] in *.
    specialize (IH args' s' sp' Ha').
    destruct (spec_calls h args' sp') as [sp'' as_]. destruct (run_calls h s') as [s'' rs].
    cbn [fst snd] in *. inversion Hf as [|? ? ? ? Hd Hf']; subst.
    destruct H3 as [H3 H4]; [by eapply answered_unexplained|].
    destruct IH as [IH1 IH2]; [done|done|lia|done|].
    split; [done|]. by constructor.
Qed.

Lemma tracks_new : tracks store_new sstate_new.
Proof. by split_and!. Qed.

Lemma c32 h args :
  Forall2 (fun c l => env_ok (c_env c) /\ carries (c_req c) l) h args ->
  (lenN h < 2 ^ 63)%N ->
  let engine := run_calls h store_new in
  let spec := spec_calls h args sstate_new in
  Forall2 (fun c a => debug (c_env c) = true -> ~ too_large a) h spec.2 ->
  st_keys engine.1 = sp_keys spec.1 /\
  Forall3 (fun c a r => answered (c_env c) (c_res c) a r) h spec.2 engine.2.
Proof.
  intros Ha Hb engine spec Hf. by apply refines; [..|apply tracks_new| |].
Qed.

Lemma spec_calls_length h args s :
  length args = length h -> length (spec_calls h args s).2 = length h.
Proof.
  revert args s. induction h as [|c h IH]; intros [|l args] s Hl; cbn in *; try done.
  destruct (spec_dispatch _ _ _ _ s) as [s' a]. specialize (IH args s').
  destruct (spec_calls h args s') as [s'' as_]. cbn in *. rewrite IH; lia.
Qed.

(** In release builds there is no further condition. *)
Lemma c32_release h args :
  Forall2 (fun c l => env_ok (c_env c) /\ carries (c_req c) l) h args ->
  (lenN h < 2 ^ 63)%N -> Forall (fun c => debug (c_env c) = false) h ->
  let engine := run_calls h store_new in
  let spec := spec_calls h args sstate_new in
  st_keys engine.1 = sp_keys spec.1 /\
  Forall3 (fun c a r => answered (c_env c) (c_res c) a r) h spec.2 engine.2.
Proof.
  intros Ha Hb Hd. apply c32; [done..|].
  apply Forall2_same_length_lookup_2.
  - rewrite spec_calls_length; [done|]. by symmetry; eapply Forall2_length.
  - intros i c a Hc _ Ht. rewrite Forall_lookup in Hd. specialize (Hd i c Hc). congruence.
Qed.

(** ** C33 *)

Lemma dispatch_well_typed e s req res :
  well_typed (st_keys s) -> well_typed (st_keys (dispatch e s req res).1).
Proof.
  intros Hs. rewrite dispatch_run, tally_keys.
  by apply (safe_run (touched req) value_wf (ends e req res)); [apply command_safe|].
Qed.

Lemma c33_store dbg h : forall s m,
  well_typed (st_keys s) -> well_typed (st_keys (run_events dbg h s m).1.1).
Proof.
  induction h as [|ev h IH]; intros s m Hs; [done|]. cbn [run_events].
  destruct ev as [c|t|id].
  - pose proof (dispatch_well_typed (c_env c) s (c_req c) (c_res c) Hs) as H.
    destruct (dispatch _ _ _ _) as [s' r]. specialize (IH s' m H).
    by destruct (run_events dbg h s' m) as [[s'' m''] rs].
  - destruct (session_add _ _ _ _) as [[m' cs] id]. specialize (IH (Store (st_keys s) cs) m' Hs).
    by destruct (run_events dbg h _ m') as [[s'' m''] rs].
  - destruct (session_remove _ _) as [m' b]. specialize (IH s m' Hs).
    by destruct (run_events dbg h _ m') as [[s'' m''] rs].
Qed.

Lemma c33_stored dbg h :
  well_typed (st_keys (run_events dbg h store_new sessions_new).1.1).
Proof. apply c33_store. intros k v. cbn. by rewrite lookup_empty. Qed.

Lemma value_of_wf t l v : value_of t l = Some v -> value_wf v.
Proof.
  unfold value_of. destruct l as [|a l]; [done|].
  destruct t; try by intros [= <-].
  - destruct a; [done|]. by intros [= <-].
  - unfold arg_float. destruct (_ <=? _)%nat eqn:H; [|done]. intros [= <-].
    pose proof (be_dec_lt (take 8 a)) as Hb. unfold lenN in Hb. rewrite take_length in Hb.
    replace (8 `min` length a)%nat with 8%nat in Hb by lia.
    change (256 ^ N.of_nat 8)%N with u64_mod in Hb. done.
  - destruct (arg_int a) as [z|] eqn:Ha; [|done]. intros [= <-].
    by eapply arg_int_range.
  - destruct (utf8_valid a) eqn:Hu; [|done]. by intros [= <-].
Qed.

Lemma spec_answer_wf dbg st c kt l ks ks' v :
  well_typed ks -> spec_command dbg st c kt l ks = (ks', AVal v) ->
  value_wf v \/ (c = CLength /\ exists n, v = VInteger (Z.of_N n) /\ (2 ^ 63 <= n)%N).
Proof.
  intros Hw H.
  assert (Hint : forall k n, spec_add_int dbg ks k n = (ks', AVal v) -> value_wf v).
  { intros k n. unfold spec_add_int. destruct (bad_key dbg k); [done|].
    destruct (default _ _); try congruence. destruct (decide _) as [Hr|_].
    - by intros [= <- <-].
    - destruct dbg; [done|]. intros [= <- <-]. apply i64_wrap_range. }
  assert (Hfl : forall k x, spec_add_float dbg ks k x = (ks', AVal v) -> value_wf v).
  { intros k x. unfold spec_add_float. destruct (bad_key dbg k); [done|].
    destruct (ks !! k) as [[]|]; try congruence. intros [= <- <-]. apply f64_add_lt. }
  destruct c; cbn in H.
  - left. destruct l as [|k r]; [by destruct kt as [[]|]|]. destruct kt as [[]|]; by eauto.
  - left. destruct l as [|k r]; [by destruct kt as [[]|]|]. destruct kt as [[]|]; by eauto.
  - left. destruct l as [|k [|a r]]; try done. unfold spec_increment_by in H.
    destruct (arg_int a); [by eauto|done].
  - left. destruct l as [|k [|a r]]; try done. unfold spec_decrement_by in H.
    destruct (arg_int a); [|done]. destruct (decide _); [by eauto|]. destruct dbg; [done|by eauto].
  - left. destruct l as [|k [|a r]]; try done. unfold spec_set in H.
    destruct (value_of _ _) eqn:Hv; [|done]. destruct (bad_key dbg k); [done|].
    injection H as <- <-. by eapply value_of_wf.
  - left. destruct l as [|k r]; [done|]. unfold spec_get in H. destruct (bad_key dbg k); [done|].
    destruct (ks !! k) eqn:Hk; [|done]. apply Hw in Hk. destruct kt as [t|].
    + destruct (decide _); [|done]. by injection H as <- <-.
    + by injection H as <- <-.
  - left. destruct kt; [done|]. destruct l as [|k r]; [done|]. destruct (is_present ks k); [|done].
    by injection H as <- <-.
  - left. destruct kt; [done|]. destruct l as [|k r]; [done|]. by injection H as <- <-.
  - left. destruct kt as [t|]; [|done]. destruct l as [|k r]; [done|]. by injection H as <- <-.
  - left. destruct kt; [done|]. destruct l as [|k [|a r]]; try done. unfold spec_rename in H.
    destruct (ks !! k), (ks !! a); try done. by injection H as <- <-.
  - left. destruct l as [|k r]; [by destruct kt|]. destruct kt; [done|].
    destruct (ks !! k) as [w|]; [|done]. injection H as <- <-. by destruct (kind w).
  - left. destruct l as [|k r]; [done|]. unfold spec_append in H.
    destruct (type_or _ _ _ _); try done; (destruct (bad_key dbg k); [done|]).
    + destruct (default _ _); try congruence. by injection H as <- <-.
    + destruct (ks !! k) as [w|] eqn:Hk; [apply Hw in Hk|clear Hk]; cbn in H.
      * destruct w; try congruence. injection H as <- <-. cbn.
        rewrite <-push_valid_spec. by apply push_valid_utf8.
      * injection H as <- <-. cbn. change (concat ?x) with ([] ++ concat x).
        rewrite <-push_valid_spec. by apply push_valid_utf8.
    + destruct (default _ _); try congruence. by injection H as <- <-.
  - destruct l as [|k r]; [done|]. unfold spec_length in H.
    destruct (type_or _ _ _ _); try done;
      (destruct (bad_key dbg k); [done|]; destruct (ks !! k) as [w|]; [|done];
       destruct (decide _); [|done]; destruct (size_of w) as [n|]; [|done];
       injection H as <- <-; destruct (decide (2 ^ 63 <= n)%N);
       [right; eauto|left; cbn; unfold i64_range, i64_half; lia]).
  - left. destruct l as [|k r]; [done|]. unfold spec_keys in H.
    destruct (type_or _ _ _ _); try done. destruct (bad_key dbg k); [done|].
    by destruct (ks !! k) as [[]|].
  - left. by injection H as <- <-.
  - left. destruct kt; [done|]. by injection H as <- <-.
Qed.

Lemma c33_answers e s req res l b :
  env_ok e -> room s -> carries req l -> well_typed (st_keys s) ->
  (dispatch e s req res).2 = COk b ->
  exists v, responds e res v (COk b) /\
    (value_wf v \/ (r_command req = CLength /\ exists n, v = VInteger (Z.of_N n) /\ (2 ^ 63 <= n)%N)).
Proof.
  intros He Hr Hc Hw Ho.
  destruct (dispatch_answered e s req res l He Hc Hr) as [Ha _]. cbn zeta in Ha. rewrite Ho in Ha.
  destruct (spec_command _ _ _ _ _ _) as [ks [v|m|err|]] eqn:Hs; cbn in Ha; try done.
  - exists v. split; [done|]. by eapply spec_answer_wf.
  - destruct Ha as (x & _ & Ha). exists (VList x). split; [done|]. by left.
Qed.

(** ** C36 *)

(** Programs that do not touch the counters. *)
Fixpoint quiet (p : prog) : Prop :=
  match p with
  | PRet _ => True
  | PContains _ c => forall b, quiet (c b)
  | PGet _ c => forall v, quiet (c v)
  | PInsert _ _ c => quiet c
  | PRemove _ c => forall v, quiet (c v)
  | PKoi _ _ _ c | PKoiIns _ _ _ c => forall r, quiet (c r)
  | PCounter _ c => forall n, quiet (c n)
  | PIncr _ _ _ => False
  end.

Lemma quiet_run p : forall s, quiet p -> st_counters (run p s).1 = st_counters s.
Proof.
  induction p as [r|k c IH|k c IH|k v c IH|k c IH|k d u c IH|k d u c IH|m c IH|dbg m c IH];
    intros s Hp; cbn in *; try done; rewrite ?IH; try done; try apply Hp.
  - destruct (u _) as [v r]. by rewrite IH.
  - destruct (u _) as [v r]. by rewrite IH.
Qed.

Lemma quiet_guarded e k p : quiet p -> quiet (guarded e k p).
Proof. unfold guarded. intros H. by repeat case_match. Qed.

Lemma quiet_koi e k d u : quiet (key_or_insert_with e k d u).
Proof. by apply quiet_guarded. Qed.

Lemma quiet_ref e k c : (forall v, quiet (c v)) -> quiet (key_ref e k c).
Proof. intros H. by apply quiet_guarded. Qed.

Lemma quiet_resolve req k d c : (forall t, quiet (c t)) -> quiet (resolve_type req k d c).
Proof. intros H. unfold resolve_type. destruct (r_key_type req); [done|]. cbn. done. Qed.

Lemma quiet_read {A} e res k (f : value -> option A) c : quiet (read_variant e res k f c).
Proof. apply quiet_ref. intros [v|]; [|done]. by destruct (f v). Qed.

Lemma quiet_exist l c : (forall b, quiet (c b)) -> quiet (all_exist l c).
Proof. intros H. induction l as [|k l IH]; cbn; [done|]. by intros []. Qed.

Lemma quiet_are t l c : (forall b, quiet (c b)) -> quiet (all_are t l c).
Proof. intros H. induction l as [|k l IH]; cbn; [done|]. intros v. by case_match. Qed.

Lemma quiet_stats l c : forall m, (forall m, quiet (c m)) -> quiet (stats_loop l m c).
Proof. induction l as [|k l IH]; intros m H; cbn; [done|]. intros [n|]; [case_match|]; auto. Qed.

Lemma quiet_set {A} e res k d (f : value -> option A) n b o : quiet (set_with e res k d f n b o).
Proof. intros v. apply quiet_koi. Qed.

Lemma command_quiet e req res : quiet (command_prog e req res).
Proof.
  unfold command_prog. destruct (r_command req).
  - unfold cmd_increment. case_match; [|done]. case_match; apply quiet_koi.
  - unfold cmd_decrement. case_match; [|done]. case_match; apply quiet_koi.
  - unfold cmd_increment_by. repeat case_match; try done; apply quiet_koi.
  - unfold cmd_decrement_by. repeat case_match; try done; apply quiet_koi.
  - unfold cmd_set. repeat case_match; try done. apply quiet_resolve. intros t.
    unfold set_typed. destruct t; case_match; try done; apply quiet_set.
  - unfold cmd_get. case_match; [|done]. apply quiet_ref. intros v. by repeat case_match.
  - unfold cmd_delete. repeat case_match; try done. cbn. intros v. by case_match.
  - unfold cmd_exists. repeat case_match; try done. by apply quiet_exist.
  - unfold cmd_is. repeat case_match; try done. by apply quiet_are.
  - unfold cmd_rename. repeat case_match; try done. intros []; [|done]. intros []; [done|].
    by intros [].
  - unfold cmd_type. repeat case_match; try done. by intros [].
  - unfold cmd_append. repeat case_match; try done. apply quiet_resolve. intros t.
    destruct t; try done; apply quiet_koi.
  - unfold cmd_length. case_match; [|done]. apply quiet_resolve. intros t.
    destruct t; try done; apply quiet_read.
  - unfold cmd_keys. case_match; [|done]. apply quiet_resolve. intros t.
    destruct t; try done; apply quiet_read.
  - unfold cmd_echo. by case_match.
  - unfold cmd_stats. case_match; [done|]. by apply quiet_stats.
Qed.

(** The counters after a history. *)
Definition counts_are (s : store) (ok err ses : N) : Prop :=
  counter_is s MCommandsSuccessful ok /\ counter_is s MCommandsErrored err /\
  counter_is s MSessionsStarted ses /\ st_counters s !! MSessionsEnded = None.

Lemma counter_bump s ks m m' n (x : N) :
  counter_is s m n ->
  x = (if decide (m = m') then 1 else 0)%N ->
  counter_is (Store ks (<[m' := (count s m' + 1)%N]> (st_counters s))) m (n + x).
Proof.
  intros H ->. apply (counter_is_inc s ks m m') in H. destruct (decide _); [done|].
  by rewrite N.add_0_r.
Qed.

Lemma how_many_cons f r rs :
  how_many f (r :: rs) = ((if f r then 1 else 0) + how_many f rs)%N.
Proof.
  unfold how_many. rewrite filter_cons. destruct (f r); cbn.
  - rewrite decide_True by done. by rewrite lenN_cons.
  - by rewrite decide_False by done.
Qed.

Lemma counts_dispatch e s req res ok err ses :
  counts_are s ok err ses -> (ok + err + ses < 2 ^ 63)%N ->
  let out := dispatch e s req res in
  counts_are out.1 (ok + if is_ok out.2 then 1 else 0)%N (err + if is_err out.2 then 1 else 0)%N ses.
Proof.
  intros Hc Hb. rewrite dispatch_run.
  pose proof (quiet_run _ s (command_quiet e req res)) as Hq.
  destruct (run _ s) as [s1 r]. cbn [fst snd] in *.
  assert (Hc1 : counts_are s1 ok err ses) by (unfold counts_are, counter_is in *; by rewrite Hq).
  clear Hc Hq. destruct Hc1 as (H1 & H2 & H3 & H4).
  pose proof (counter_is_count _ _ _ H1). pose proof (counter_is_count _ _ _ H2).
  unfold tally. destruct r as [b|er b|]; cbn.
  - rewrite count_inc by (unfold u64_mod; lia). cbn. split_and!.
    + by apply (counter_bump s1).
    + by apply (counter_bump s1).
    + rewrite <-(N.add_0_r ses). by apply (counter_bump s1).
    + cbn. by rewrite lookup_insert_ne.
  - rewrite count_inc by (unfold u64_mod; lia). cbn. split_and!.
    + by apply (counter_bump s1).
    + by apply (counter_bump s1).
    + rewrite <-(N.add_0_r ses). by apply (counter_bump s1).
    + cbn. by rewrite lookup_insert_ne.
  - rewrite !N.add_0_r. by split_and!.
Qed.

Lemma counts_events dbg h : forall s m ok err ses,
  counts_are s ok err ses -> (ok + err + ses + lenN h < 2 ^ 63)%N ->
  let '(s', _, rs) := run_events dbg h s m in
  counts_are s' (ok + how_many ok_result rs) (err + how_many err_result rs)
    (ses + how_many session_result rs).
Proof.
  induction h as [|ev h IH]; intros s m ok err ses Hc Hb.
  { cbn. change (how_many _ []) with 0%N. by rewrite !N.add_0_r. }
  rewrite lenN_cons in Hb. cbn [run_events]. destruct ev as [c|t|id].
  - pose proof (counts_dispatch (c_env c) s (c_req c) (c_res c) _ _ _ Hc) as Hd.
    cbn zeta in Hd. destruct (dispatch _ _ _ _) as [s' r]. cbn [fst snd] in Hd.
    specialize (Hd ltac:(lia)).
    specialize (IH s' m _ _ _ Hd). destruct (run_events dbg h s' m) as [[s'' m''] rs].
    rewrite !how_many_cons.
    destruct r; cbn [ok_result err_result session_result is_ok is_err] in *;
      rewrite ?N.add_0_r, ?N.add_0_l, ?N.add_assoc in *; apply IH; lia.
  - unfold session_add. destruct (sm_live m !! sm_next m).
    + destruct s as [ks cs]. specialize (IH (Store ks cs) m ok err ses Hc). cbn [st_keys st_counters].
      destruct (run_events dbg h _ m) as [[s'' m''] rs].
      rewrite !how_many_cons. cbn [ok_result err_result session_result].
      rewrite !N.add_0_l. apply IH. lia.
    + destruct Hc as (H1 & H2 & H3 & H4). pose proof (counter_is_count _ _ _ H3).
      pose proof (count_inc (Env dbg map_to_list elements) s MSessionsStarted) as Hi.
      cbn in Hi. rewrite Hi by (unfold u64_mod; lia).
      assert (Hc' : counts_are (Store (st_keys s) (<[MSessionsStarted := (count s MSessionsStarted + 1)%N]>
                (st_counters s))) ok err (ses + 1)).
      { split_and!.
        - rewrite <-(N.add_0_r ok). by apply (counter_bump s).
        - rewrite <-(N.add_0_r err). by apply (counter_bump s).
        - by apply (counter_bump s).
        - cbn. by rewrite lookup_insert_ne. }
      specialize (IH _ (Sessions (u32_succ (sm_next m))
        (<[sm_next m:=Session.Session t (sm_next m)]> (sm_live m))) _ _ _ Hc').
      destruct (run_events dbg h _ _) as [[s'' m''] rs].
      rewrite !how_many_cons. cbn [ok_result err_result session_result].
      rewrite !N.add_0_l, N.add_assoc. apply IH. lia.
  - destruct (session_remove m id) as [m' b]. specialize (IH s m' ok err ses Hc).
    destruct (run_events dbg h _ m') as [[s'' m''] rs].
    rewrite !how_many_cons. cbn [ok_result err_result session_result].
    rewrite !N.add_0_l. apply IH. lia.
Qed.

Lemma counts_stats s ok err ses :
  counts_are s ok err ses -> (ok + err + ses < 2 ^ 63)%N ->
  stats_are (engine_stats s) ok err ses.
Proof.
  intros (H1 & H2 & H3 & _) Hb.
  pose proof (tracks_stats s (SState ∅ ok err ses)) as Ht. unfold tracks, grand_total in Ht. cbn in Ht.
  rewrite Ht; [|done|lia]. unfold spec_stats, count_entry, stats_are. cbn.
  assert (lit "commands_successful"%string <> lit "commands_errored"%string) by done.
  assert (lit "sessions_started"%string <> lit "commands_errored"%string) by done.
  assert (lit "sessions_started"%string <> lit "commands_successful"%string) by done.
  destruct (ok =? 0)%N, (err =? 0)%N, (ses =? 0)%N; split_and!; simplify_map_eq; try done;
    intros k [v Hk];
    repeat (apply lookup_insert_Some in Hk as [[<- _]|[_ Hk]]; [by auto|]);
    by rewrite ?lookup_empty in Hk.
Qed.

Lemma run_events_length dbg h : forall s m,
  length (run_events dbg h s m).2 = length h.
Proof.
  induction h as [|ev h IH]; intros s m; [done|]. cbn [run_events].
  destruct (match ev with EvCall _ => _ | _ => _ end) as [[s' m'] r].
  specialize (IH s' m'). destruct (run_events dbg h s' m') as [[s'' m''] rs]. cbn in *. lia.
Qed.

Lemma how_many_sum rs :
  (how_many ok_result rs + how_many err_result rs + how_many session_result rs <= lenN rs)%N.
Proof.
  induction rs as [|r rs IH]; [done|]. rewrite !how_many_cons, lenN_cons.
  destruct r as [[]|[]|]; cbn [ok_result err_result session_result]; lia.
Qed.

Lemma c36 dbg h e req res l :
  (lenN h < 2 ^ 63)%N -> env_ok e -> asks req CStats None l ->
  let '(s, _, rs) := run_events dbg h store_new sessions_new in
  exists m, responds e res (VMap m) (dispatch e s req res).2 /\
    stats_are m (how_many ok_result rs) (how_many err_result rs) (how_many session_result rs).
Proof.
  intros Hb He Hq.
  pose proof (counts_events dbg h store_new sessions_new 0 0 0) as H.
  pose proof (run_events_length dbg h store_new sessions_new) as Hl.
  destruct (run_events dbg h store_new sessions_new) as [[s m] rs] eqn:Hrun.
  rewrite !N.add_0_l in H. specialize (H ltac:(by split_and!) ltac:(lia)).
  pose proof (how_many_sum rs) as Hs. cbn in Hl.
  assert (Hlen : lenN rs = lenN h) by (unfold lenN; lia).
  exists (engine_stats s). split.
  - eapply dispatch_val; [done|done| |done].
    intros x. destruct H as (H1 & H2 & H3 & H4). unfold count.
    destruct x.
    + fold (count s MCommandsSuccessful). rewrite (counter_is_count _ _ _ H1). lia.
    + fold (count s MCommandsErrored). rewrite (counter_is_count _ _ _ H2). lia.
    + fold (count s MSessionsStarted). rewrite (counter_is_count _ _ _ H3). lia.
    + rewrite H4. cbn. lia.
  - apply counts_stats; [done|lia].
Qed.
