(** Where stored and answered data comes from: proofs of C112. *)
From Verif Require Import Bytes BytesFacts Utf8 Float64 Value CommandId Request RequestFacts Response WireSpec ResponseFacts RespLimits
  Metrics Prog Commands HistorySpec Locks LockScripts LockScriptSpec LockScriptFacts ConcSpec ConcFacts Scripts LinSpec KeyLinSpec
  OriginSpec.
From stdpp Require Import gmap list.
From Coq Require Import NArith ZArith Lia.

(** ** Programs that keep to the origins *)

Section Traced.
  Context (V : bytes -> value -> Prop) (R : cres -> Prop).

  Definition fits_at (k : bytes) (v : option value) : Prop := forall x, v = Some x -> V k x.

  Fixpoint traced (p : prog) : Prop :=
    match p with
    | PRet r => R r
    | PContains k c => forall b, traced (c b)
    | PGet k c => forall v, fits_at k v -> traced (c v)
    | PInsert k v c => V k v /\ traced c
    | PRemove k c => forall v, fits_at k v -> traced (c v)
    | PKoi k d u c | PKoiIns k d u c =>
      V k d /\ forall v, V k v -> V k (u v).1 /\ traced (c (u v).2)
    | PCounter m c => forall n, traced (c n)
    | PIncr dbg m c => R CPanic /\ traced c
    end.

  Definition all_fit (s : store) : Prop := forall k, fits_at k (st_keys s !! k).

  Lemma all_fit_insert s k v : all_fit s -> V k v -> all_fit (with_keys s (<[k := v]> (st_keys s))).
  Proof.
    intros H Hv k' x. unfold with_keys. cbn [st_keys]. destruct (decide (k' = k)) as [->|Hne].
    - rewrite lookup_insert. by intros [= <-].
    - rewrite lookup_insert_ne by done. apply H.
  Qed.

  Lemma all_fit_delete s k : all_fit s -> all_fit (with_keys s (delete k (st_keys s))).
  Proof. intros H k' x. unfold with_keys. cbn [st_keys]. rewrite lookup_delete_Some. intros [_ ?]. by eapply H. Qed.

  Lemma traced_pstep p s p' s' : traced p -> all_fit s -> pstep p s = Some (p', s') -> traced p' /\ all_fit s'.
  Proof.
    intros Hp Hs. destruct p as [r|k c|k c|k v c|k c|k d u c|k d u c|m c|dbg m c]; cbn in *.
    - done.
    - intros [= <- <-]. auto.
    - intros [= <- <-]. split; [|done]. by apply Hp.
    - intros [= <- <-]. destruct Hp as [Hv Hc]. split; [done|]. by apply all_fit_insert.
    - intros [= <- <-]. split; [by apply Hp|]. by apply all_fit_delete.
    - destruct Hp as [Hd Hu]. destruct (st_keys s !! k) as [v|] eqn:Hk.
      + destruct (Hu v) as [Hv Hc]; [by eapply Hs|]. destruct (u v) as [v' r]. intros [= <- <-].
        split; [done|]. by apply all_fit_insert.
      + by intros [= <- <-].
    - destruct Hp as [Hd Hu]. intros [= <- <-]. split; [done|]. by apply all_fit_insert.
    - intros [= <- <-]. auto.
    - destruct Hp as [Hc Hp]. destruct (counters_increment _ _ _); intros [= <- <-]; auto.
  Qed.
End Traced.

Lemma traced_pbind V (R R' : cres -> Prop) p f :
  traced V R p -> (forall r, R r -> traced V R' (f r)) -> (R CPanic -> R' CPanic) -> traced V R' (pbind p f).
Proof.
  intros Hp Hf Hc. induction p as [r|k c IH|k c IH|k v c IH|k c IH|k d u c IH|k d u c IH|m c IH|dbg m c IH]; cbn in *.
  - by apply Hf.
  - intros b. by apply IH.
  - intros v Hv. apply IH. by apply Hp.
  - destruct Hp. auto.
  - intros v Hv. apply IH. by apply Hp.
  - destruct Hp as [Hd Hu]. split; [done|]. intros v Hv. destruct (Hu v Hv). auto.
  - destruct Hp as [Hd Hu]. split; [done|]. intros v Hv. destruct (Hu v Hv). auto.
  - intros n. by apply IH.
  - destruct Hp. auto.
Qed.

(** ** The words of a request *)

Lemma next_some a x a' : arguments_next a = (Some x, a') ->
  arg (a_req a) (a_idx a) = Some x /\ a_req a' = a_req a /\ a_idx a' = (a_idx a + 1)%N.
Proof. unfold arguments_next. destruct (_ =? _)%N; [done|]. by intros [= H <-]. Qed.

Lemma collect_from f a x : x ∈ arguments_collect_fuel f a ->
  exists i, (a_idx a <= i)%N /\ arg (a_req a) i = Some x.
Proof.
  revert a. induction f as [|f IH]; intros a; cbn; [by rewrite elem_of_nil|].
  destruct (arguments_next a) as [[y|] a'] eqn:E; [|by rewrite elem_of_nil].
  apply next_some in E as (Hy & Hr & Hi). intros [->|H]%elem_of_cons; [eauto with lia|].
  apply IH in H as (i & Hle & H). rewrite Hr in H. exists i. split; [lia|done].
Qed.

Lemma args_from_word req n a x : args_from req n = Some a -> x ∈ arguments_collect a ->
  exists i, (n <= i)%N /\ arg req i = Some x.
Proof.
  unfold args_from, args. destruct (_ =? _)%N; [done|]. intros [= <-] Hx. by apply collect_from in Hx.
Qed.

Lemma args_all_word req a x : args_all req = Some a -> x ∈ arguments_collect a -> exists i, arg req i = Some x.
Proof.
  unfold args_all, args. destruct (_ =? _)%N; [done|]. intros [= <-] Hx.
  apply collect_from in Hx as (i & _ & Hx). by exists i.
Qed.

Lemma map_words (W : bytes -> Prop) f a m :
  (forall i x, (a_idx a <= i)%N -> arg (a_req a) i = Some x -> W x) ->
  (forall k x, m !! k = Some x -> W k /\ W x) ->
  forall k x, convert_map_fuel f a m !! k = Some x -> W k /\ W x.
Proof.
  revert a m. induction f as [|f IH]; intros a m Ha Hm; cbn; [exact Hm|].
  destruct (arguments_next a) as [o1 a1] eqn:E1. destruct (arguments_next a1) as [o2 a2] eqn:E2.
  destruct o1 as [k1|]; [|exact Hm]. destruct o2 as [v1|]; [|exact Hm].
  apply next_some in E1 as (H1 & R1 & I1). apply next_some in E2 as (H2 & R2 & I2).
  apply IH.
  - intros i x Hi Hx. rewrite R2, R1 in Hx. eapply Ha; [|exact Hx]. lia.
  - intros k x. destruct (decide (k = k1)) as [->|Hne].
    + rewrite lookup_insert. intros [= <-]. split; [eapply Ha; [|exact H1]; lia|].
      rewrite R1 in H2. eapply Ha; [|exact H2]. lia.
    + rewrite lookup_insert_ne by done. apply Hm.
Qed.

Lemma push_valid_words l b : push_valid b l = b ++ concat (filter (fun a => utf8_valid a = true) l).
Proof.
  unfold push_valid. revert b. induction l as [|a l IH]; intros b; cbn [fold_left]; [by rewrite app_nil_r|].
  unfold from_utf8 at 2. destruct (utf8_valid a) eqn:E.
  - rewrite IH, filter_cons_True by done. cbn. by rewrite app_assoc.
  - rewrite IH, filter_cons_False by congruence. done.
Qed.

Lemma made_of_weaken (W W' : bytes -> Prop) v : (forall w, W w -> W' w) -> made_of W v -> made_of W' v.
Proof.
  intros H. destruct v; cbn; try done.
  - intros (ws & Hf & ->). exists ws. split; [|done]. by eapply Forall_impl.
  - intros Hf. by eapply Forall_impl.
  - intros Hm k x Hx. destruct (Hm _ _ Hx). auto.
  - intros Hs x Hx. auto.
  - intros (ws & Hf & ->). exists ws. split; [|done]. by eapply Forall_impl.
Qed.

Lemma made_of_itself v : made_of (in_value v) v.
Proof.
  destruct v; cbn; try done.
  - exists [bs]. split; [by repeat constructor|]. cbn. by rewrite app_nil_r.
  - rewrite Forall_forall. auto.
  - intros k x Hx. split; eauto 10.
  - exists [s]. split; [by repeat constructor|]. cbn. by rewrite app_nil_r.
Qed.

(** ** The commands *)

Section Commands.
  Context (scripts : list (list call)) (s0 : store) (c : call).
  Hypothesis Hc : issued scripts c.

  Notation e := (c_env c). Notation req := (c_req c). Notation res := (c_res c).
  Notation V := (fun k => made_of (origin scripts s0 k)).
  Notation W := (may_answer scripts s0 c).

  Definition fine (r : cres) : Prop :=
    env_ok e -> r_command req <> CStats ->
    match r with
    | CPanic => True
    | CErr _ out => out = res
    | COk out => exists v, made_of W v /\ out = res ++ resp_frame e (RValue v)
    end.
  Notation traced' := (traced V fine).

  Lemma fine_write v : made_of W v -> fine (cres_of (write_value e res v)).
  Proof.
    intros Hv He Hns. change (write_value e res v) with (copy_to e (RValue v) res).
    destruct (copy_to e (RValue v) res) as [out|] eqn:E; [|done].
    cbn. exists v. split; [done|]. by apply (c15_written e (RValue v) res He).
  Qed.
  Lemma fine_err err : fine (CErr err res).
  Proof. done. Qed.
  Lemma fine_panic : fine CPanic.
  Proof. done. Qed.
  Lemma fine_int z : fine (COk (write_int res z)).
  Proof. by apply (fine_write (VInteger z)). Qed.
  Lemma fine_float z : fine (COk (write_float res z)).
  Proof. by apply (fine_write (VFloat z)). Qed.
  Lemma fine_bool z : fine (COk (write_bool res z)).
  Proof. by apply (fine_write (VBoolean z)). Qed.

  Lemma traced_guarded k p : traced' p -> traced' (guarded e k p).
  Proof. intros Hp. unfold guarded. destruct (starts_with _ _); [done|]. by destruct (_ && _). Qed.

  Lemma traced_koi k d u : V k d -> (forall v, V k v -> V k (u v).1 /\ fine (u v).2) ->
    traced' (key_or_insert_with e k d u).
  Proof. intros Hd Hu. unfold key_or_insert_with. apply traced_guarded. cbn. done. Qed.

  Lemma traced_variant {A} k (as_ : value -> option A) v f :
    V k v -> (forall a, as_ v = Some a -> V k (f a).1 /\ fine (f a).2) ->
    V k (with_variant res as_ v f).1 /\ fine (with_variant res as_ v f).2.
  Proof. intros Hv Hf. unfold with_variant. destruct (as_ v); [by apply Hf|done]. Qed.

  Lemma traced_resolve k d f : (forall t, r_key_type req = None \/ r_key_type req = Some t -> traced' (f t)) ->
    traced' (resolve_type req k d f).
  Proof. intros Hf. unfold resolve_type. destruct (r_key_type req); [by apply Hf; right|]. cbn. intros. apply Hf. by left. Qed.

  Lemma traced_read {A} k (as_ : value -> option A) f :
    (forall v a, V k v -> as_ v = Some a -> fine (f a)) -> traced' (read_variant e res k as_ f).
  Proof.
    intros Hf. unfold read_variant, key_ref. apply traced_guarded. cbn. intros [v|] Hv; [|done].
    destruct (as_ v) as [a|] eqn:E; [|done]. cbn. eapply Hf; [|exact E]. by apply Hv.
  Qed.

  Lemma given k i w : r_command req = CSet \/ r_command req = CAppend -> ~ about_scalar req -> arg req 0 = Some k ->
    (1 <= i)%N -> arg req i = Some w -> origin scripts s0 k w.
  Proof. intros H0 Hn Hk Hi Hw. apply origin_given. exists c, i. done. Qed.

  Lemma not_scalar t : r_key_type req = None \/ r_key_type req = Some t ->
    match t with KTBoolean | KTFloat | KTInteger => True | _ => ~ about_scalar req end.
  Proof. intros [E|E]; destruct t; try done; intros [H|[H|H]]; congruence. Qed.

  Lemma answer_key k v : r_command req = CSet \/ r_command req = CAppend \/ r_command req = CGet \/ r_command req = CKeys ->
    arg req 0 = Some k -> V k v -> made_of W v.
  Proof.
    intros H0 Hk. apply made_of_weaken. intros w Hw. unfold may_answer.
    destruct H0 as [-> |[-> |[-> | ->]]]; by exists k.
  Qed.

  Lemma traced_append : r_command req = CAppend -> traced' (cmd_append e req res).
  Proof.
    intros H0. unfold cmd_append. destruct (arg req 0) as [k|] eqn:Hk; [|done].
    destruct (args_from req 1) as [a|] eqn:Ea; [|done].
    assert (Hl : ~ about_scalar req -> Forall (origin scripts s0 k) (arguments_collect a)).
    { intros Hns. rewrite Forall_forall. intros x Hx. destruct (args_from_word _ _ _ _ Ea Hx) as (i & Hi & Hw).
      eapply given; eauto. }
    assert (Hg : forall v, V k v -> made_of W v) by (intros; eapply answer_key; eauto).
    apply traced_resolve. intros t Ht%not_scalar. destruct t; try done; specialize (Hl Ht).
    - apply traced_koi; [by exists []|]. intros v Hv. apply traced_variant; [done|].
      intros b Hb. destruct v as [|b'| | | | | |]; try done. injection Hb as <-.
      destruct Hv as (ws & Hws & ->). cbn [fst snd].
      assert (Hn : V k (VBytes (concat ws ++ concat (arguments_collect a)))).
      { exists (ws ++ arguments_collect a). split; [by apply Forall_app|]. by rewrite concat_app. }
      split; [exact Hn|]. apply (fine_write (VBytes _)). by apply Hg.
    - apply traced_koi; [by exists []|]. intros v Hv. apply traced_variant; [done|].
      intros b Hb. destruct v as [| | | | | | |b']; try done. injection Hb as <-.
      destruct Hv as (ws & Hws & ->). cbn [fst snd].
      assert (Hn : V k (VString (push_valid (concat ws) (arguments_collect a)))).
      { exists (ws ++ filter (fun a => utf8_valid a = true) (arguments_collect a)). split.
        - apply Forall_app. split; [done|]. rewrite Forall_forall in *. intros x [_ Hx]%elem_of_list_filter. auto.
        - by rewrite push_valid_words, concat_app. }
      split; [exact Hn|]. apply (fine_write (VString _)). by apply Hg.
    - apply traced_koi; [by constructor|]. intros v Hv. apply traced_variant; [done|].
      intros b Hb. destruct v as [| | | |b'| | |]; try done. injection Hb as <-. cbn [fst snd].
      assert (Hn : V k (VList (b' ++ arguments_collect a))) by (apply Forall_app; done).
      split; [exact Hn|]. apply (fine_write (VList _)). by apply Hg.
  Qed.

  Lemma traced_add_float k x : traced' (increment_float_by e k x res).
  Proof.
    apply traced_koi; [done|]. intros v Hv. apply traced_variant; [done|]. intros f _. split; [done|]. apply fine_float.
  Qed.

  Lemma traced_add_int k n : traced' (increment_int_by e k n res).
  Proof.
    apply traced_koi; [done|]. intros v Hv. apply traced_variant; [done|].
    intros z _. destruct (i64_checked _ _); split; try done. apply fine_int.
  Qed.

  Lemma traced_set_with {A} k d (as_ : value -> option A) new kept out :
    V k d -> V k new -> fine (cres_of out) -> traced' (set_with e res k d as_ new kept out).
  Proof.
    intros Hd Hn Ho. unfold set_with. cbn. intros _ _. apply traced_koi; [done|]. intros v Hv.
    apply traced_variant; [done|]. intros a _. destruct out as [b|]; cbn [fst snd]; [done|]. split; [by destruct kept|done].
  Qed.

  Lemma typed_arg_word {A} (f : bytes -> option A) i a : typed_arg f req i = Some a ->
    exists w, arg req i = Some w /\ f w = Some a.
  Proof. unfold typed_arg. destruct (arg req i); cbn; [eauto|done]. Qed.

  Lemma traced_set_typed k t : r_command req = CSet -> r_key_type req = None \/ r_key_type req = Some t ->
    arg req 0 = Some k -> traced' (set_typed e req res k t).
  Proof.
    intros H0 Ht%not_scalar Hk.
    assert (Hg : forall v, V k v -> made_of W v) by (intros; eapply answer_key; eauto).
    assert (Hw : ~ about_scalar req -> forall i w, (1 <= i)%N -> arg req i = Some w -> origin scripts s0 k w)
      by (intros; eapply given; eauto).
    unfold set_typed. destruct t; try specialize (Hw Ht).
    - destruct (typed_arg Some req 1) as [a|] eqn:E; [|done].
      apply typed_arg_word in E as (w & E & [= ->]).
      assert (Hn : V k (VBytes a)).
      { exists [a]. split; [|cbn; by rewrite app_nil_r]. constructor; [|done]. eapply (Hw 1%N); [done|exact E]. }
      apply traced_set_with; [by exists []|exact Hn|]. apply (fine_write (VBytes _)). by apply Hg.
    - destruct (typed_arg convert_bool req 1) as [a|] eqn:E; [|done]. apply traced_set_with; [done|done|]. apply fine_bool.
    - destruct (typed_arg convert_f64 req 1) as [a|] eqn:E; [|done]. apply traced_set_with; [done|done|]. apply fine_float.
    - destruct (typed_arg convert_i64 req 1) as [a|] eqn:E; [|done]. apply traced_set_with; [done|done|]. apply fine_int.
    - destruct (typed_arg convert_str req 1) as [a|] eqn:E; [|done].
      apply typed_arg_word in E as (w & E & Hu). unfold convert_str, from_utf8 in Hu. destruct (utf8_valid w); [|done].
      injection Hu as <-.
      assert (Hn : V k (VString w)).
      { exists [w]. split; [|cbn; by rewrite app_nil_r]. constructor; [|done]. eapply (Hw 1%N); [done|exact E]. }
      apply traced_set_with; [by exists []|exact Hn|]. apply (fine_write (VString _)). by apply Hg.
    - destruct (args_from req 1) as [a|] eqn:E; [|done].
      assert (Hn : V k (VList (arguments_collect a))).
      { cbn. rewrite Forall_forall. intros x Hx. destruct (args_from_word _ _ _ _ E Hx) as (i & Hi & Hx'). eauto. }
      apply traced_set_with; [by constructor|exact Hn|]. apply (fine_write (VList _)). by apply Hg.
    - unfold typed_args. destruct (args_from req 1) as [a|] eqn:E; [|done].
      assert (Hn : V k (VMap (convert_map a))).
      { unfold convert_map. cbn [made_of]. apply map_words; [|intros ? ?; by rewrite lookup_empty].
        unfold args_from, args in E. destruct (_ =? _)%N; [done|]. injection E as <-. cbn [a_idx a_req]. exact Hw. }
      apply traced_set_with; [intros ? ?; by rewrite lookup_empty|exact Hn|]. apply (fine_write (VMap _)). by apply Hg.
    - unfold typed_args. destruct (args_from req 1) as [a|] eqn:E; [|done].
      assert (Hn : V k (VSet (convert_set a))).
      { rewrite convert_set_spec. intros x Hx%elem_of_list_to_set.
        destruct (args_from_word _ _ _ _ E Hx) as (i & Hi & Hx'). eauto. }
      apply traced_set_with; [intros x Hx; set_solver|exact Hn|]. apply (fine_write (VSet _)). by apply Hg.
  Qed.

  Lemma traced_all_exist l f : (forall b, traced' (f b)) -> traced' (all_exist l f).
  Proof. intros Hf. induction l as [|k l IH]; cbn; [apply Hf|]. intros []; [done|apply Hf]. Qed.

  Lemma traced_all_are t l f : (forall b, traced' (f b)) -> traced' (all_are t l f).
  Proof.
    intros Hf. induction l as [|k l IH]; cbn; [apply Hf|]. intros v _.
    destruct (match v with Some _ => _ | None => _ end); [done|apply Hf].
  Qed.

  Lemma traced_stats_loop l m f : (forall m, traced' (f m)) -> traced' (stats_loop l m f).
  Proof.
    intros Hf. revert m. induction l as [|x l IH]; intros m; cbn; [apply Hf|].
    intros [n|]; [destruct (_ <? _)%Z; apply IH|apply IH].
  Qed.

  Lemma key_word k : key req = Some k -> arg req 0 = Some k.
  Proof. unfold key. by destruct (key_notation_of _). Qed.

  Lemma own_words v : r_command req = CEcho \/ r_command req = CDelete \/ r_command req = CRename ->
    made_of (fun w => exists i, arg req i = Some w) v -> made_of W v.
  Proof. intros H0. apply made_of_weaken. intros w Hw. unfold may_answer. destruct H0 as [-> |[-> | ->]]; done. Qed.

  Lemma own_bytes i k : arg req i = Some k -> made_of (fun w => exists i, arg req i = Some w) (VBytes k).
  Proof. intros Hi. exists [k]. split; [|cbn; by rewrite app_nil_r]. constructor; [by exists i|done]. Qed.

  Lemma traced_command : traced' (command_prog e req res).
  Proof.
    unfold command_prog. destruct (r_command req) eqn:H0.
    - unfold cmd_increment. destruct (key req); [|done]. destruct (wants_float req); [apply traced_add_float|apply traced_add_int].
    - unfold cmd_decrement. destruct (key req); [|done]. destruct (wants_float req); [apply traced_add_float|apply traced_add_int].
    - unfold cmd_increment_by. destruct (key req); [|done]. destruct (typed_arg convert_i64 req 1); [apply traced_add_int|].
      destruct (typed_arg convert_f64 req 1); [apply traced_add_float|done].
    - unfold cmd_decrement_by. destruct (key req); [|done]. destruct (typed_arg convert_i64 req 1).
      + destruct (i64_checked _ _); [apply traced_add_int|done].
      + destruct (typed_arg convert_f64 req 1); [apply traced_add_float|done].
    - unfold cmd_set. destruct (key req) as [k|] eqn:Hk; [|done]. apply key_word in Hk.
      destruct (arg req 1); [|done]. apply traced_resolve. intros t Ht. by apply traced_set_typed.
    - unfold cmd_get. destruct (key req) as [k|] eqn:Hk; [|done]. apply key_word in Hk.
      unfold key_ref. apply traced_guarded. cbn. intros [v|] Hv; [|done].
      assert (Hf : fine (cres_of (write_value e res v))) by (apply fine_write; eapply answer_key; eauto).
      destruct (r_key_type req); [|done]. by destruct (decide _).
    - unfold cmd_delete. destruct (r_key_type req); [done|]. destruct (key req) as [k|] eqn:Hk; [|done].
      apply key_word in Hk. cbn. intros [v|] _; [|done]. apply (fine_write (VBytes k)).
      apply own_words; [auto|]. by eapply own_bytes.
    - unfold cmd_exists. destruct (r_key_type req); [done|]. destruct (args_all req); [|done].
      apply traced_all_exist. intros b. apply fine_bool.
    - unfold cmd_is. destruct (r_key_type req); [|done]. destruct (args_all req); [|done].
      apply traced_all_are. intros b. apply fine_bool.
    - unfold cmd_rename. destruct (r_key_type req); [done|]. destruct (arg req 0) as [k|] eqn:Hk; [|done].
      destruct (arg req 1) as [a|] eqn:Ha; [|done]. cbn. intros []; [|done]. intros []; [done|].
      intros [v|] Hv; [|done]. cbn. split.
      + eapply made_of_weaken; [|by apply Hv]. intros w Hw. eapply origin_renamed; [|exact Hw]. by exists c.
      + apply (fine_write (VBytes a)). apply own_words; [auto|]. by eapply own_bytes.
    - unfold cmd_type. destruct (key req) as [k|] eqn:Hk; [|done]. destruct (r_key_type req); [done|].
      cbn. intros [v|] _; [apply fine_int|done].
    - by apply traced_append.
    - unfold cmd_length. destruct (key req) as [k|] eqn:Hk; [|done].
      apply traced_resolve. intros t _. destruct t; try done; apply traced_read; intros; apply fine_int.
    - unfold cmd_keys. destruct (key req) as [k|] eqn:Hk; [|done]. apply key_word in Hk.
      apply traced_resolve. intros t _. destruct t; try done. apply traced_read. intros v m Hv Hm.
      destruct v as [| | | | |m'| |]; try done. injection Hm as <-.
      intros He. apply (fine_write (VList _)); [|done]. eapply answer_key; [auto|exact Hk|]. cbn. rewrite Forall_forall.
      intros x (p & -> & Hp)%elem_of_list_fmap. destruct He as [Hmi _]. 
      rewrite Hmi in Hp. destruct p as [x y]. apply elem_of_map_to_list in Hp. by apply (Hv x y).
    - unfold cmd_echo. destruct (args_all req) as [a|] eqn:Ea.
      + apply (fine_write (VList _)). apply own_words; [auto|]. cbn. rewrite Forall_forall. intros x Hx.
        by eapply args_all_word.
      + apply (fine_write (VList [])). by constructor.
    - unfold cmd_stats. destruct (r_key_type req); [done|]. apply traced_stats_loop. intros m. by intros _ ?.
  Qed.

  Lemma traced_dispatch : traced' (dispatch_prog e req res).
  Proof.
    unfold dispatch_prog. eapply traced_pbind; [apply traced_command| |done].
    intros [out|err out|] Hr; [split; [apply fine_panic|exact Hr]..|apply fine_panic].
  Qed.
End Commands.

(** ** Schedules *)

Lemma outcome_fine scripts s0 c r : fine scripts s0 c r -> env_ok (c_env c) -> r_command (c_req c) <> CStats ->
  match r with
  | CPanic => True
  | CErr _ out => out = c_res c
  | COk out => exists v, made_of (may_answer scripts s0 c) v /\ out = c_res c ++ resp_frame (c_env c) (RValue v)
  end.
Proof. intros H. apply H. Qed.

(** ** Clients *)

Section Track.
  Context (scripts : list (list call)) (V : bytes -> value -> Prop) (F : call -> cres -> Prop).
  Context (Hdispatch : forall c, issued scripts c ->
    traced V (F c) (dispatch_prog (c_env c) (c_req c) (c_res c))).

  (** A client is where it should be in its script. *)
  Definition on_track (i : nat) (cl : client) : Prop :=
    (forall j r, cl_done cl !! j = Some r -> exists c, call_at scripts (i, j) = Some c /\ F c r) /\
    (forall p, cl_now cl = Some p -> exists c, call_at scripts (i, length (cl_done cl)) = Some c /\
       traced V (F c) p) /\
    (forall j c, cl_todo cl !! j = Some c -> call_at scripts (i, begun cl + j) = Some c).

  Lemma client_step_track i cl s cl' s' :
    on_track i cl -> all_fit V s -> client_step cl s = Some (cl', s') -> on_track i cl' /\ all_fit V s'.
  Proof.
    destruct cl as [dn now todo]. unfold on_track, begun, client_step. cbn [cl_done cl_now cl_todo].
    intros (Hd & Hn & Ht) Hs. destruct now as [p|].
    - destruct (Hn p eq_refl) as (c & Hc & Hp).
      assert (Hgo : forall p' s1, pstep p s = Some (p', s1) ->
        Some (Client dn (Some p') todo, s1) = Some (cl', s') -> on_track i cl' /\ all_fit V s').
      { intros p' s1 Hps [= <- <-]. destruct (traced_pstep _ _ _ _ _ _ Hp Hs Hps) as [Hp' Hs'].
        split; [|done]. split_and!; [done| |done]. cbn. intros ? [= <-]. by exists c. }
      destruct p as [r| | | | | | | |].
      2-9: (destruct (pstep _ s) as [[p' s1]|] eqn:E; [by eapply Hgo|done]).
      intros [= <- <-]. split; [|done]. cbn [cl_done cl_now cl_todo]. split_and!; [|done|].
      + intros j r' Hj. apply lookup_app_Some in Hj as [Hj|[Hle Hj]]; [by apply Hd|].
        apply list_lookup_singleton_Some in Hj as [Hj <-].
        replace j with (length dn) by lia. by exists c.
      + intros j c' Hj. rewrite app_length. cbn [length].
        replace (length dn + 1 + 0 + j) with (length dn + 1 + j) by lia. by apply Ht.
    - destruct todo as [|c todo]; [done|]. intros [= <- <-]. split; [|done]. cbn [cl_done cl_now cl_todo].
      assert (Hc : call_at scripts (i, length dn) = Some c).
      { specialize (Ht 0 c eq_refl). by replace (length dn + 0 + 0) with (length dn) in Ht by lia. }
      split_and!; [done| |].
      + intros p [= <-]. exists c. split; [done|]. apply Hdispatch. by exists (i, length dn).
      + intros j c' Hj. replace (length dn + 1 + j) with (length dn + 0 + S j) by lia. by apply Ht.
  Qed.

  Lemma sys_run_track sched x y :
    (forall i cl, x.1 !! i = Some cl -> on_track i cl) -> all_fit V x.2 -> sys_run sched x = Some y ->
    (forall i cl, y.1 !! i = Some cl -> on_track i cl) /\ all_fit V y.2.
  Proof.
    revert x. induction sched as [|i sched IH]; intros x Hx Hs; cbn [sys_run]; [by intros [= <-]|].
    destruct (sys_step i x) as [x1|] eqn:E; [|done].
    unfold sys_step in E. destruct (x.1 !! i) as [cl|] eqn:Hi; [|done].
    destruct (client_step cl x.2) as [[cl' s']|] eqn:Hc; [|done]. injection E as <-.
    destruct (client_step_track _ _ _ _ _ (Hx _ _ Hi) Hs Hc) as [Ht Hs']. apply IH; cbn [fst snd]; [|done].
    intros j cl1 Hj. destruct (decide (i = j)) as [<-|Hne].
    - rewrite list_lookup_insert in Hj by (by eapply lookup_lt_Some). by injection Hj as <-.
    - rewrite list_lookup_insert_ne in Hj by done. by apply Hx.
  Qed.

  Lemma begin_track s0 sched y : all_fit V s0 -> sys_run sched (begin scripts s0) = Some y ->
    (forall i cl, y.1 !! i = Some cl -> on_track i cl) /\ all_fit V y.2.
  Proof.
    intros Hs. apply sys_run_track; [|done].
    intros i cl Hi. unfold begin in Hi. cbn [fst] in Hi.
    change (map ?f scripts) with (f <$> scripts) in Hi. apply list_lookup_fmap_inv in Hi as (h & -> & Hh).
    split_and!; cbn; [done|done|]. intros j c Hj. unfold call_at. cbn. by rewrite Hh.
  Qed.
End Track.

Lemma origin_track scripts s0 sched y : sys_run sched (begin scripts s0) = Some y ->
  (forall i cl, y.1 !! i = Some cl ->
     on_track scripts (fun k => made_of (origin scripts s0 k)) (fine scripts s0) i cl) /\
  all_fit (fun k => made_of (origin scripts s0 k)) y.2.
Proof.
  intros Hr. eapply begin_track; [|by intros k v Hv; eapply made_of_weaken; [|apply made_of_itself];
    intros w Hw; eapply origin_stored|exact Hr].
  intros c Hc. by apply traced_dispatch.
Qed.

(** ** Keys *)

Lemma within_traced (R W : bytes -> Prop) C (P : bytes -> Prop) p :
  within R W C p -> (forall k, W k -> P k) -> traced (fun k _ => P k) (fun _ => True) p.
Proof.
  intros Hp HW.
  induction p as [r|k c IH|k c IH|k v c IH|k c IH|k d u c IH|k d u c IH|m c IH|dbg m c IH]; cbn in *.
  - done.
  - intros b. by apply IH, Hp.
  - intros v _. by apply IH, Hp.
  - destruct Hp. auto.
  - intros v _. by apply IH, Hp.
  - destruct Hp as (_ & Hk & Hc). auto.
  - destruct Hp as (_ & Hk & Hc). auto.
  - intros n. by apply IH, Hp.
  - auto.
Qed.

(** ** The theorems *)

Lemma c112_stored scripts s0 sched x k v :
  sys_run sched (begin scripts s0) = Some x -> st_keys x.2 !! k = Some v -> made_of (origin scripts s0 k) v.
Proof. intros Hr Hv. destruct (origin_track _ _ _ _ Hr) as [_ Hs]. by apply Hs. Qed.

Lemma c112_keys scripts s0 sched x k v :
  sys_run sched (begin scripts s0) = Some x -> st_keys x.2 !! k = Some v ->
  (exists v0, st_keys s0 !! k = Some v0) \/ (exists c, issued scripts c /\ may_write (c_req c) k).
Proof.
  intros Hr Hv.
  destruct (begin_track scripts (fun k _ => (exists v0, st_keys s0 !! k = Some v0) \/
    (exists c, issued scripts c /\ may_write (c_req c) k)) (fun _ _ => True)) with (s0 := s0) (sched := sched) (y := x)
    as [_ H]; [| |done|by eapply H].
  - intros c Hc. unfold dispatch_prog. eapply (traced_pbind _ (fun _ => True)); [| |done].
    + eapply within_traced; [apply command_within|]. intros k' Hk'. right. by exists c.
    + by intros [out|err out|] _.
  - intros k' v' Hv'. left. by exists v'.
Qed.

Lemma c112_answered scripts s0 sched x a c r :
  sys_run sched (begin scripts s0) = Some x -> call_at scripts a = Some c -> env_ok (c_env c) ->
  r_command (c_req c) <> CStats -> returned x a r ->
  match r with
  | CPanic => True
  | CErr _ out => out = c_res c
  | COk out => exists v, made_of (may_answer scripts s0 c) v /\ out = c_res c ++ resp_frame (c_env c) (RValue v)
  end.
Proof.
  intros Hr Hc He Hns (cl & Hcl & Hd). destruct (origin_track _ _ _ _ Hr) as [Ht _].
  destruct (Ht _ _ Hcl) as (Hdone & _). destruct (Hdone _ _ Hd) as (c' & Hc' & Hf).
  rewrite <-surjective_pairing, Hc in Hc'. injection Hc' as <-. by apply outcome_fine.
Qed.

(** With the map's locks: for the keys that nobody has locked for writing. *)
Lemma c112_locked sh scripts s0 lsched x :
  lsys_run sh lsched (lbegin scripts s0) = Some x ->
  (forall k v, unlocked sh x k -> st_keys x.2 !! k = Some v ->
     made_of (origin scripts s0 k) v /\
     ((exists v0, st_keys s0 !! k = Some v0) \/ (exists c, issued scripts c /\ may_write (c_req c) k))) /\
  (forall a c r, call_at scripts a = Some c -> env_ok (c_env c) -> r_command (c_req c) <> CStats ->
     lreturned x a r ->
     match r with
     | CPanic => True
     | CErr _ out => out = c_res c
     | COk out => exists v, made_of (may_answer scripts s0 c) v /\ out = c_res c ++ resp_frame (c_env c) (RValue v)
     end).
Proof.
  intros Hr. destruct (lock_transfer _ _ _ _ _ Hr) as (sched & y & f & Hy & Hi & _).
  split.
  - intros k v Hu Hv. rewrite (sinv_key _ _ _ _ Hi Hu) in Hv.
    split; [by eapply c112_stored|by eapply c112_keys].
  - intros a c r Hc He Hns Hret%(sinv_returned _ _ _ _ _ Hi). by eapply c112_answered.
Qed.
