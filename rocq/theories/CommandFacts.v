(** The commands refine the specification of [EngineSpec]. *)
From Coq Require Import String.
From Verif Require Import Bytes BytesFacts Utf8 Float64 Value CommandId Request Response
  Metrics Prog Commands EngineSpec WireSpec RequestSpec RequestFacts.
From stdpp Require Import gmap list.
From Coq Require Import NArith ZArith Lia.
From Coq Require Import ZifyBool ZifyNat ZifyN.

(** ** Small correspondences *)

Lemma get_range_0_8 a :
  get_range a 0 8 = if (8 <=? length a)%nat then Some (take 8 a) else None.
Proof.
  unfold get_range. change (N.to_nat 0) with 0%nat. change (8 - 0)%N with 8%N.
  change (N.to_nat 8) with 8%nat. rewrite drop_0. cbn [andb].
  replace (0 <=? 8)%N with true by done. cbn [andb].
  destruct (Nat.leb_spec 8 (length a)); unfold lenN.
  - by replace (8 <=? N.of_nat (length a))%N with true by lia.
  - by replace (8 <=? N.of_nat (length a))%N with false by lia.
Qed.

Lemma convert_i64_spec a : convert_i64 a = arg_int a.
Proof. unfold convert_i64, arg_int. rewrite get_range_0_8. by destruct (_ <=? _)%nat. Qed.

Lemma convert_f64_spec a : convert_f64 a = arg_float a.
Proof. unfold convert_f64, arg_float. rewrite get_range_0_8. by destruct (_ <=? _)%nat. Qed.

Lemma list_ind2 {A} (P : list A -> Prop) :
  P [] -> (forall x, P [x]) -> (forall x y l, P l -> P (x :: y :: l)) -> forall l, P l.
Proof.
  intros H0 H1 H2 l. enough (P l /\ forall x, P (x :: l)) by tauto.
  induction l as [|a l [IH1 IH2]]; split; auto.
Qed.

Lemma alternate_spec l m : insert_pairs m (pairs_of l) = alternate l m.
Proof.
  revert m. induction l as [| |k v l IH] using list_ind2; intros m; [done|done|].
  cbn. by rewrite <-IH.
Qed.

Lemma push_valid_spec s l :
  push_valid s l = s ++ concat (filter (fun a => utf8_valid a = true) l).
Proof.
  unfold push_valid. revert s. induction l as [|a l IH]; intros s; cbn [fold_left].
  - cbn. by rewrite app_nil_r.
  - rewrite IH. unfold from_utf8. rewrite filter_cons.
    destruct (utf8_valid a) eqn:E.
    + rewrite decide_True by done. cbn. by rewrite app_assoc.
    + by rewrite decide_False by done.
Qed.

Lemma starts_with_reserved k :
  starts_with k reserved_prefix = bool_decide (take 8 k = lit "__hop__:").
Proof.
  destruct (starts_with k reserved_prefix) eqn:E.
  - apply starts_with_spec in E as [r ->]. by rewrite bool_decide_true.
  - symmetry. apply bool_decide_eq_false. intros H.
    assert (starts_with k reserved_prefix = true); [|congruence].
    apply starts_with_spec. exists (drop 8 k).
    unfold reserved_prefix. by rewrite <-H, take_drop.
Qed.

Lemma char_count_spec s :
  char_count s = lenN (filter (fun b => starts_char b = true) s).
Proof.
  unfold char_count. f_equal. apply list_filter_iff. intros b.
  unfold is_cont, in_range, starts_char.
  destruct (N.leb_spec 128 (b2n b)), (N.leb_spec (b2n b) 191), (N.ltb_spec (b2n b) 192); cbn; split; done || lia.
Qed.

Lemma bad_key_guard e k :
  bad_key (debug e) k =
  starts_with k reserved_prefix || (debug e && (lenN k =? 0)%N).
Proof.
  unfold bad_key. rewrite starts_with_reserved. f_equal. f_equal.
  destruct k as [|b k]; [done|]. rewrite lenN_cons.
  replace (1 + lenN k =? 0)%N with false by lia. by apply bool_decide_eq_false.
Qed.

Lemma with_keys_id s : with_keys s (st_keys s) = s.
Proof. by destruct s. Qed.

Lemma st_keys_with s ks : st_keys (with_keys s ks) = ks.
Proof. done. Qed.

(** ** The guarded accesses *)

Lemma run_guarded e k p s :
  run (guarded e k p) s = if bad_key (debug e) k then (s, CPanic) else run p s.
Proof.
  unfold guarded. rewrite bad_key_guard.
  destruct (starts_with k reserved_prefix); [done|]. cbn [orb].
  by destruct (debug e && (lenN k =? 0)%N).
Qed.

Lemma run_koi e k d u s :
  run (key_or_insert_with e k d u) s =
  if bad_key (debug e) k then (s, CPanic)
  else let '(v, r) := u (default d (st_keys s !! k)) in
       (with_keys s (<[k := v]> (st_keys s)), r).
Proof.
  unfold key_or_insert_with. rewrite run_guarded. destruct (bad_key _ _); [done|].
  cbn [run]. by destruct (u _) as [v r].
Qed.

Lemma run_read_variant {A} e res k (as_ : value -> option A) f s :
  run (read_variant e res k as_ f) s =
  if bad_key (debug e) k then (s, CPanic)
  else (s, match st_keys s !! k with
           | None => CErr EKeyNonexistent res
           | Some v => match as_ v with
                       | None => CErr EKeyTypeDifferent res
                       | Some a => f a
                       end
           end).
Proof.
  unfold read_variant, key_ref. rewrite run_guarded. destruct (bad_key _ _); [done|].
  cbn [run]. destruct (st_keys s !! k) as [v|]; [|done]. by destruct (as_ v).
Qed.

Lemma run_resolve req k d cont s :
  run (resolve_type req k d cont) s =
  run (cont (type_or (st_keys s) (r_key_type req) k d)) s.
Proof. unfold resolve_type, type_or. by destruct (r_key_type req). Qed.

(** ** The relation between the specification and the engine *)

Definition engine_says (req : request) (e : env) (s : store) (res : bytes)
  (sp : keyspace * answer) (out : store * cres) : Prop :=
  match sp.2 with
  | AErr err => out = (with_keys s sp.1, CErr err res)
  | ACrash => out = (with_keys s sp.1, CPanic)
  | AVal v =>
    st_counters out.1 = st_counters s /\
    out.2 = cres_of (copy_to e (RValue v) res) /\
    (st_keys out.1 = sp.1 \/
     r_command req = CSet /\ out.2 = CPanic /\
     exists k, arg req 0 = Some k /\ sp.1 = <[k := v]> (st_keys s) /\
               st_keys out.1 = <[k := emptied v]> (st_keys s))
  | AKeys m =>
    exists l, l ≡ₚ elements m /\
    out = (with_keys s sp.1, cres_of (copy_to e (RValue (VList l)) res))
  end.

Global Arguments engine_says : simpl never.
Global Arguments with_keys : simpl never.
Global Arguments cres_of : simpl never.

Lemma says_val {req} e s res ks v :
  engine_says req e s res (ks, AVal v)
    (with_keys s ks, cres_of (copy_to e (RValue v) res)).
Proof. unfold engine_says. cbn. auto. Qed.

Lemma says_val_id {req} e s res v :
  engine_says req e s res (st_keys s, AVal v) (s, cres_of (copy_to e (RValue v) res)).
Proof. unfold engine_says. cbn. auto. Qed.

Lemma says_err {req} e s res err :
  engine_says req e s res (st_keys s, AErr err) (s, CErr err res).
Proof. unfold engine_says. cbn. by rewrite with_keys_id. Qed.

Lemma says_crash {req} e s res :
  engine_says req e s res (st_keys s, ACrash) (s, CPanic).
Proof. unfold engine_says. cbn. by rewrite with_keys_id. Qed.

Lemma says_err_keep {req} e s res err k v :
  st_keys s !! k = Some v ->
  engine_says req e s res (st_keys s, AErr err)
    (with_keys s (<[k := v]> (st_keys s)), CErr err res).
Proof. intros H. rewrite insert_id by done. unfold engine_says. done. Qed.

Lemma says_crash_keep {req} e s res k v :
  st_keys s !! k = Some v ->
  engine_says req e s res (st_keys s, ACrash)
    (with_keys s (<[k := v]> (st_keys s)), CPanic).
Proof. intros H. rewrite insert_id by done. unfold engine_says. done. Qed.

(** ** Commands *)

Section commands.
  Context (e : env) (s : store) (req : request) (res : bytes).

  Lemma spec_key_some c k l :
    r_command req = c -> key_notation_of c <> KNNone -> carries req (k :: l) ->
    key req = Some k /\ arg req 0 = Some k /\ arg req 1 = head l /\
    args_from req 1 = Some (Arguments 1 (lenN (k :: l)) req) /\
    arguments_collect (Arguments 1 (lenN (k :: l)) req) = l.
  Proof.
    intros Hc Hn H. destruct (args_from_1 req (k :: l) H) as (a & Ha & Hcol & ->); [done|].
    destruct H as [Hcnt H]. pose proof (H 0%N) as H0. pose proof (H 1%N) as H1.
    unfold key. rewrite Hc. split; [by destruct (key_notation_of c)|].
    split; [done|]. split; [|done]. rewrite H1. by destruct l.
  Qed.

  Lemma spec_key_none c :
    r_command req = c -> carries req [] -> key req = None /\ arg req 0 = None /\
    arg req 1 = None /\ args_from req 1 = None /\ args_all req = None.
  Proof.
    intros Hc H. destruct (H) as [Hcnt Ha]. pose proof (Ha 0%N) as H0. pose proof (Ha 1%N) as H1.
    unfold key. rewrite H0, H1. split; [by destruct (key_notation_of _)|].
    repeat (split; [done|]). unfold args_from, args_all. by rewrite !args_nil.
  Qed.

  Lemma add_int_ok k n :
    i64_range n ->
    engine_says req e s res (spec_add_int (debug e) (st_keys s) k n)
      (run (increment_int_by e k n res) s).
  Proof.
    intros Hn. unfold spec_add_int, increment_int_by. rewrite run_koi.
    destruct (bad_key (debug e) k); [apply says_crash|].
    destruct (st_keys s !! k) as [v|] eqn:Hk; unfold with_variant.
    - destruct v as [x|bs|f|z|l|m|st|str]; cbn;
        try (apply says_err_keep; done).
      destruct (decide (i64_range (z + n))) as [Hr|Hr].
      + rewrite i64_checked_ok by done. apply says_val.
      + rewrite i64_checked_out by done. destruct (debug e).
        * by apply says_crash_keep.
        * apply says_val.
    - cbn. rewrite decide_True by (by destruct n).
      rewrite i64_checked_ok by (by destruct n). apply says_val.
  Qed.

  Lemma add_float_ok k x :
    engine_says req e s res (spec_add_float (debug e) (st_keys s) k x)
      (run (increment_float_by e k x res) s).
  Proof.
    unfold spec_add_float, increment_float_by. rewrite run_koi.
    destruct (bad_key (debug e) k); [apply says_crash|].
    destruct (st_keys s !! k) as [v|] eqn:Hk; unfold with_variant.
    - destruct v as [y|bs|f|z|l|m|st|str]; cbn; try (apply says_err_keep; done).
      apply says_val.
    - cbn. done.
  Qed.

  Lemma cmd_append_ok l :
    r_command req = CAppend -> carries req l ->
    engine_says req e s res
      (match l with [] => (st_keys s, AErr EKeyUnspecified)
       | k :: l => spec_append (debug e) (st_keys s) (r_key_type req) k l end)
      (run (cmd_append e req res) s).
  Proof.
    intros Hc Hl. unfold cmd_append. destruct l as [|k l].
    { destruct (spec_key_none _ Hc Hl) as (_ & -> & _). apply says_err. }
    destruct (spec_key_some _ k l Hc) as (_ & -> & _ & -> & Ha); [done..|].
    rewrite run_resolve. unfold spec_append.
    destruct (type_or _ _ _ _); try apply says_err.
    all: unfold append_bytes, append_list, append_string; rewrite run_koi, Ha;
      (destruct (bad_key (debug e) k); [apply says_crash|]);
      (destruct (st_keys s !! k) as [v|] eqn:Hk); unfold with_variant;
      [destruct v; cbn; try (apply says_err_keep; done)|cbn];
      rewrite ?push_valid_spec; apply says_val.
  Qed.

  Lemma arg_int_range a z : arg_int a = Some z -> i64_range z.
  Proof.
    unfold arg_int. destruct (Nat.leb_spec 8 (length a)); [|done]. intros [= <-].
    apply i64_dec_range. rewrite take_length. lia.
  Qed.

  Lemma arg_float_none a : arg_int a = None -> arg_float a = None.
  Proof. unfold arg_int, arg_float. by destruct (_ <=? _)%nat. Qed.

  Lemma cmd_increment_by_ok l :
    r_command req = CIncrementBy -> carries req l ->
    engine_says req e s res
      (match l with [] => (st_keys s, AErr EKeyUnspecified)
       | [_] => (st_keys s, AErr EArgumentRetrieval)
       | k :: a :: _ => spec_increment_by (debug e) (st_keys s) k a end)
      (run (cmd_increment_by e req res) s).
  Proof.
    intros Hc Hl. unfold cmd_increment_by. destruct l as [|k l].
    { destruct (spec_key_none _ Hc Hl) as (-> & _). apply says_err. }
    destruct (spec_key_some _ k l Hc) as (-> & _ & Ha & _); [done..|].
    unfold typed_arg. rewrite Ha. destruct l as [|a l]; cbn [head].
    { apply says_err. }
    rewrite convert_i64_spec, convert_f64_spec. unfold spec_increment_by.
    destruct (arg_int a) as [z|] eqn:E.
    - apply add_int_ok. by eapply arg_int_range.
    - rewrite arg_float_none by done. apply says_err.
  Qed.

  Lemma cmd_decrement_by_ok l :
    r_command req = CDecrementBy -> carries req l ->
    engine_says req e s res
      (match l with [] => (st_keys s, AErr EKeyUnspecified)
       | [_] => (st_keys s, AErr EArgumentRetrieval)
       | k :: a :: _ => spec_decrement_by (debug e) (st_keys s) k a end)
      (run (cmd_decrement_by e req res) s).
  Proof.
    intros Hc Hl. unfold cmd_decrement_by. destruct l as [|k l].
    { destruct (spec_key_none _ Hc Hl) as (-> & _). apply says_err. }
    destruct (spec_key_some _ k l Hc) as (-> & _ & Ha & _); [done..|].
    unfold typed_arg. rewrite Ha. destruct l as [|a l]; cbn [head].
    { apply says_err. }
    rewrite convert_i64_spec, convert_f64_spec. unfold spec_decrement_by.
    destruct (arg_int a) as [z|] eqn:E.
    - change (0 - z)%Z with (- z)%Z. destruct (decide (i64_range (- z))) as [R|R].
      + rewrite i64_checked_ok by done. by apply add_int_ok.
      + rewrite i64_checked_out by done. destruct (debug e) eqn:Hd; [apply says_crash|].
        rewrite <-Hd. apply add_int_ok. apply i64_wrap_range.
    - rewrite arg_float_none by done. apply says_err.
  Qed.

  Lemma cmd_increment_ok l :
    r_command req = CIncrement -> carries req l ->
    engine_says req e s res
      (match l with [] => (st_keys s, AErr EKeyUnspecified)
       | k :: _ => match r_key_type req with
                   | Some KTFloat => spec_add_float (debug e) (st_keys s) k f64_one
                   | _ => spec_add_int (debug e) (st_keys s) k 1 end end)
      (run (cmd_increment e req res) s).
  Proof.
    intros Hc Hl. unfold cmd_increment. destruct l as [|k l].
    { destruct (spec_key_none _ Hc Hl) as (-> & _). apply says_err. }
    destruct (spec_key_some _ k l Hc) as (-> & _); [done..|].
    unfold wants_float. destruct (r_key_type req) as [[]|];
      first [apply add_float_ok|by apply add_int_ok].
  Qed.

  Lemma cmd_decrement_ok l :
    r_command req = CDecrement -> carries req l ->
    engine_says req e s res
      (match l with [] => (st_keys s, AErr EKeyUnspecified)
       | k :: _ => match r_key_type req with
                   | Some KTFloat => spec_add_float (debug e) (st_keys s) k f64_minus_one
                   | _ => spec_add_int (debug e) (st_keys s) k (-1) end end)
      (run (cmd_decrement e req res) s).
  Proof.
    intros Hc Hl. unfold cmd_decrement. destruct l as [|k l].
    { destruct (spec_key_none _ Hc Hl) as (-> & _). apply says_err. }
    destruct (spec_key_some _ k l Hc) as (-> & _); [done..|].
    unfold wants_float. destruct (r_key_type req) as [[]|];
      first [apply add_float_ok|by apply add_int_ok].
  Qed.

  Lemma cmd_delete_ok l :
    r_command req = CDelete -> carries req l ->
    engine_says req e s res
      (match r_key_type req with
       | Some _ => (st_keys s, AErr EKeyTypeUnexpected)
       | None =>
         match l with [] => (st_keys s, AErr EKeyUnspecified)
         | k :: _ => if is_present (st_keys s) k then (delete k (st_keys s), AVal (VBytes k))
                     else (st_keys s, AErr EPreconditionFailed) end end)
      (run (cmd_delete e req res) s).
  Proof.
    intros Hc Hl. unfold cmd_delete. destruct (r_key_type req); [apply says_err|].
    destruct l as [|k l].
    { destruct (spec_key_none _ Hc Hl) as (-> & _). apply says_err. }
    destruct (spec_key_some _ k l Hc) as (-> & _); [done..|].
    cbn [run]. unfold is_present. destruct (st_keys s !! k) as [v|] eqn:Hk.
    - apply says_val.
    - rewrite delete_notin by done. rewrite with_keys_id. apply says_err.
  Qed.

  Lemma cmd_echo_ok l :
    r_command req = CEcho -> carries req l ->
    engine_says req e s res (st_keys s, AVal (VList l)) (run (cmd_echo e req res) s).
  Proof.
    intros Hc Hl. unfold cmd_echo. destruct l as [|k l].
    { destruct (spec_key_none _ Hc Hl) as (_ & _ & _ & _ & ->). apply says_val_id. }
    destruct (args_all_collect req (k :: l)) as (a & -> & Ha); [done..|].
    rewrite Ha. apply says_val_id.
  Qed.

  Lemma run_all_exist l cont :
    run (all_exist l cont) s = run (cont (forallb (is_present (st_keys s)) l)) s.
  Proof.
    induction l as [|k l IH]; [done|]. cbn. unfold is_present at 1.
    by destruct (st_keys s !! k).
  Qed.

  Lemma run_all_are t l cont :
    run (all_are t l cont) s = run (cont (forallb (has_kind (st_keys s) t) l)) s.
  Proof.
    induction l as [|k l IH]; [done|]. cbn. unfold has_kind at 1.
    destruct (st_keys s !! k); [|done]. by destruct (bool_decide _).
  Qed.

  Lemma cmd_exists_ok l :
    r_command req = CExists -> carries req l ->
    engine_says req e s res
      (match r_key_type req with
       | Some _ => (st_keys s, AErr EKeyTypeUnexpected)
       | None =>
         match l with [] => (st_keys s, AErr EArgumentRetrieval)
         | _ => (st_keys s, AVal (VBoolean (forallb (is_present (st_keys s)) l))) end end)
      (run (cmd_exists e req res) s).
  Proof.
    intros Hc Hl. unfold cmd_exists. destruct (r_key_type req); [apply says_err|].
    destruct l as [|k l].
    { destruct (spec_key_none _ Hc Hl) as (_ & _ & _ & _ & ->). apply says_err. }
    destruct (args_all_collect req (k :: l)) as (a & -> & Ha); [done..|].
    rewrite Ha, run_all_exist. apply says_val_id.
  Qed.

  Lemma cmd_is_ok l :
    r_command req = CIs -> carries req l ->
    engine_says req e s res
      (match r_key_type req with
       | None => (st_keys s, AErr EKeyTypeRequired)
       | Some t =>
         match l with [] => (st_keys s, AErr EArgumentRetrieval)
         | _ => (st_keys s, AVal (VBoolean (forallb (has_kind (st_keys s) t) l))) end end)
      (run (cmd_is e req res) s).
  Proof.
    intros Hc Hl. unfold cmd_is. destruct (r_key_type req) as [t|]; [|apply says_err].
    destruct l as [|k l].
    { destruct (spec_key_none _ Hc Hl) as (_ & _ & _ & _ & ->). apply says_err. }
    destruct (args_all_collect req (k :: l)) as (a & -> & Ha); [done..|].
    rewrite Ha, run_all_are. apply says_val_id.
  Qed.

  Lemma cmd_get_ok l :
    r_command req = CGet -> carries req l ->
    engine_says req e s res
      (match l with [] => (st_keys s, AErr EKeyUnspecified)
       | k :: _ => spec_get (debug e) (st_keys s) (r_key_type req) k end)
      (run (cmd_get e req res) s).
  Proof.
    intros Hc Hl. unfold cmd_get. destruct l as [|k l].
    { destruct (spec_key_none _ Hc Hl) as (-> & _). apply says_err. }
    destruct (spec_key_some _ k l Hc) as (-> & _); [done..|].
    unfold key_ref, spec_get. rewrite run_guarded.
    destruct (bad_key (debug e) k); [apply says_crash|]. cbn [run].
    destruct (st_keys s !! k) as [v|]; [|apply says_err].
    destruct (r_key_type req) as [t|]; [|apply says_val_id].
    destruct (decide (kind v = t)); [apply says_val_id|apply says_err].
  Qed.

  Lemma map_iter_keys m : env_ok e -> map fst (map_iter e m) ≡ₚ elements (dom m : gset bytes).
  Proof.
    intros [He _]. rewrite (He m). clear He.
    apply NoDup_Permutation.
    - apply NoDup_fst_map_to_list.
    - apply NoDup_elements.
    - intros k. rewrite elem_of_elements, elem_of_dom. rewrite elem_of_list_fmap. split.
      + intros ([k' v] & -> & H). apply elem_of_map_to_list in H. by exists v.
      + intros [v H]. exists (k, v). split; [done|]. by apply elem_of_map_to_list.
  Qed.

  Lemma cmd_keys_ok l :
    env_ok e -> r_command req = CKeys -> carries req l ->
    engine_says req e s res
      (match l with [] => (st_keys s, AErr EKeyUnspecified)
       | k :: _ => (st_keys s, spec_keys (debug e) (st_keys s) (r_key_type req) k) end)
      (run (cmd_keys e req res) s).
  Proof.
    intros He Hc Hl. unfold cmd_keys. destruct l as [|k l].
    { destruct (spec_key_none _ Hc Hl) as (-> & _). apply says_err. }
    destruct (spec_key_some _ k l Hc) as (-> & _); [done..|].
    rewrite run_resolve. unfold spec_keys.
    destruct (type_or _ _ _ _); try apply says_err.
    rewrite run_read_variant. destruct (bad_key (debug e) k); [apply says_crash|].
    destruct (st_keys s !! k) as [v|]; [|apply says_err].
    destruct v as [x|bs|f|z|ls|m|st|str]; cbn; try apply says_err.
    unfold engine_says. cbn. rewrite with_keys_id.
    eexists. split; [by apply map_iter_keys|done].
  Qed.

  Lemma cmd_length_ok l :
    r_command req = CLength -> carries req l ->
    engine_says req e s res
      (match l with [] => (st_keys s, AErr EKeyUnspecified)
       | k :: _ => (st_keys s, spec_length (debug e) (st_keys s) (r_key_type req) k) end)
      (run (cmd_length e req res) s).
  Proof.
    intros Hc Hl. unfold cmd_length. destruct l as [|k l].
    { destruct (spec_key_none _ Hc Hl) as (-> & _). apply says_err. }
    destruct (spec_key_some _ k l Hc) as (-> & _); [done..|].
    rewrite run_resolve. unfold spec_length. cbn zeta.
    destruct (type_or _ _ _ _); try apply says_err;
      rewrite run_read_variant; (destruct (bad_key (debug e) k); [apply says_crash|]);
      (destruct (st_keys s !! k) as [v|]; [|apply says_err]);
      destruct v as [x|bs|f|z|ls|m|st|str]; cbn; try apply says_err;
      try apply (says_val_id e s res (VInteger _)).
    rewrite char_count_spec. apply (says_val_id e s res (VInteger _)).
  Qed.

  Lemma cmd_rename_ok l :
    r_command req = CRename -> carries req l ->
    engine_says req e s res
      (match r_key_type req with
       | Some _ => (st_keys s, AErr EKeyTypeUnexpected)
       | None =>
         match l with [] => (st_keys s, AErr EKeyUnspecified)
         | [_] => (st_keys s, AErr EArgumentRetrieval)
         | k :: a :: _ => spec_rename (st_keys s) k a end end)
      (run (cmd_rename e req res) s).
  Proof.
    intros Hc Hl. unfold cmd_rename. destruct (r_key_type req); [apply says_err|].
    destruct l as [|k l].
    { destruct (spec_key_none _ Hc Hl) as (_ & -> & _). apply says_err. }
    destruct (spec_key_some _ k l Hc) as (_ & -> & -> & _); [done..|].
    destruct l as [|a l]; cbn [head]; [apply says_err|].
    cbn [run]. unfold spec_rename.
    destruct (st_keys s !! k) as [v|] eqn:Hk; [|apply says_err]. cbn [run].
    destruct (st_keys s !! a) as [w|] eqn:Ha; [apply says_err|]. cbn [run].
    rewrite Hk. cbn [run]. exact (says_val e s res _ (VBytes a)).
  Qed.

  Lemma run_set_with {A} k dflt (as_ : value -> option A) new kept out a0 :
    as_ dflt = Some a0 ->
    run (set_with e res k dflt as_ new kept out) s =
    if bad_key (debug e) k then (with_keys s (delete k (st_keys s)), CPanic)
    else (with_keys s (<[k := match out with Ok _ => new
                              | Panic => if kept then dflt else new end]> (st_keys s)),
          cres_of out).
  Proof.
    intros Ha. unfold set_with. cbn [run]. rewrite run_koi.
    destruct (bad_key (debug e) k); [done|]. rewrite !st_keys_with.
    rewrite lookup_delete. cbn [default]. unfold with_variant. rewrite Ha.
    destruct out; unfold with_keys; cbn; by rewrite insert_delete_insert.
  Qed.

  Lemma set_with_ok {A} k dflt (as_ : value -> option A) v (kept : bool) a0 :
    r_command req = CSet -> arg req 0 = Some k -> as_ dflt = Some a0 ->
    (if kept then dflt else v) = emptied v ->
    engine_says req e s res
      (if bad_key (debug e) k then (delete k (st_keys s), ACrash)
       else (<[k := v]> (st_keys s), AVal v))
      (run (set_with e res k dflt as_ v kept (write_value e res v)) s).
  Proof.
    intros Hc H0 Ha Hk. rewrite (run_set_with _ _ _ _ _ _ _ Ha).
    destruct (bad_key (debug e) k); [done|].
    unfold engine_says. cbn [snd fst]. split; [done|]. split; [done|].
    cbn [copy_to]. destruct (write_value e res v); [by left|]. right.
    split; [done|]. split; [done|]. exists k. by rewrite Hk.
  Qed.

  Lemma cmd_set_ok l :
    r_command req = CSet -> carries req l ->
    engine_says req e s res
      (match l with [] => (st_keys s, AErr EKeyUnspecified)
       | [_] => (st_keys s, AErr EArgumentRetrieval)
       | k :: l => spec_set (debug e) (st_keys s) (r_key_type req) k l end)
      (run (cmd_set e req res) s).
  Proof.
    intros Hc Hl. unfold cmd_set. destruct l as [|k l].
    { destruct (spec_key_none _ Hc Hl) as (-> & _). apply says_err. }
    destruct (spec_key_some _ k l Hc) as (-> & H0 & Ha & Hargs & Hcol); [done..|].
    rewrite Ha. destruct l as [|a l]; cbn [head]; [apply says_err|].
    rewrite run_resolve. unfold spec_set, set_typed.
    destruct (type_or _ _ _ _); unfold typed_arg, typed_args; rewrite ?Ha, ?Hargs; cbn [head value_of].
    - eapply (set_with_ok k value_bytes as_bytes (VBytes a)). all: done.
    - destruct a as [|b a]; cbn [convert_bool]; [apply says_err|].
      eapply (set_with_ok k value_boolean as_boolean (VBoolean _)). all: done.
    - rewrite convert_f64_spec. destruct (arg_float a); cbn [fmap option_fmap option_map]; [|apply says_err].
      eapply (set_with_ok k value_float as_float (VFloat _)). all: done.
    - rewrite convert_i64_spec. destruct (arg_int a); cbn [fmap option_fmap option_map]; [|apply says_err].
      eapply (set_with_ok k value_integer as_integer (VInteger _)). all: done.
    - unfold convert_str, from_utf8. destruct (utf8_valid a); [|apply says_err].
      eapply (set_with_ok k value_string as_string (VString _)). all: done.
    - rewrite Hcol. eapply (set_with_ok k value_list as_list (VList _)). all: done.
    - rewrite (convert_map_spec req (k :: a :: l)) by done. cbn [drop].
      rewrite alternate_spec.
      eapply (set_with_ok k value_map as_map (VMap _)). all: done.
    - rewrite convert_set_spec, Hcol.
      eapply (set_with_ok k value_set as_set (VSet _)). all: done.
  Qed.

  Lemma cmd_type_ok l :
    r_command req = CType -> carries req l ->
    engine_says req e s res
      (match l with [] => (st_keys s, AErr EKeyUnspecified)
       | k :: _ =>
         match r_key_type req with
         | Some _ => (st_keys s, AErr EKeyTypeUnexpected)
         | None => match st_keys s !! k with
                   | None => (st_keys s, AErr EKeyNonexistent)
                   | Some v => (st_keys s, AVal (VInteger (Z.of_N (key_type_to_u8 (kind v))))) end end end)
      (run (cmd_type e req res) s).
  Proof.
    intros Hc Hl. unfold cmd_type. destruct l as [|k l].
    { destruct (spec_key_none _ Hc Hl) as (-> & _). apply says_err. }
    destruct (spec_key_some _ k l Hc) as (-> & _); [done..|].
    destruct (r_key_type req); [apply says_err|]. cbn [run].
    destruct (st_keys s !! k) as [v|]; [|apply says_err].
    apply (says_val_id e s res (VInteger _)).
  Qed.

  (** What Stats answers. *)
  Definition stat_entry (m : metric) (acc : gmap bytes bytes) : gmap bytes bytes :=
    match st_counters s !! m with
    | Some n => if (Z.of_N n <? i64_half)%Z
                then <[metric_name m := i64_enc (Z.of_N n)]> acc else acc
    | None => acc
    end.

  Definition engine_stats : gmap bytes bytes :=
    stat_entry MSessionsStarted (stat_entry MCommandsSuccessful
      (stat_entry MCommandsErrored ∅)).

  Lemma cmd_stats_ok :
    engine_says req e s res
      (match r_key_type req with
       | Some _ => (st_keys s, AErr EKeyTypeUnexpected)
       | None => (st_keys s, AVal (VMap engine_stats)) end)
      (run (cmd_stats e req res) s).
  Proof.
    unfold cmd_stats. destruct (r_key_type req); [apply says_err|].
    assert (Hl : forall l m cont, run (stats_loop l m cont) s
      = run (cont (fold_left (fun m c => stat_entry c m) l m)) s).
    { induction l as [|c l IH]; intros m cont; [done|]. cbn. unfold stat_entry at 2.
      destruct (st_counters s !! c); [|apply IH]. destruct (_ <? _)%Z; apply IH. }
    rewrite Hl. apply (says_val_id e s res (VMap _)).
  Qed.

  Lemma command_ok l :
    env_ok e -> carries req l ->
    engine_says req e s res
      (spec_command (debug e) engine_stats (r_command req) (r_key_type req) l (st_keys s))
      (run (command_prog e req res) s).
  Proof.
    intros He Hl. unfold command_prog. destruct (r_command req) eqn:Hc.
    all: pose proof cmd_append_ok as H1; pose proof cmd_decrement_by_ok as H2;
      pose proof cmd_decrement_ok as H3; pose proof cmd_delete_ok as H4;
      pose proof cmd_echo_ok as H5; pose proof cmd_exists_ok as H6;
      pose proof cmd_get_ok as H7; pose proof cmd_increment_ok as H8;
      pose proof cmd_increment_by_ok as H9; pose proof cmd_is_ok as H10;
      pose proof cmd_keys_ok as H11; pose proof cmd_rename_ok as H12;
      pose proof cmd_set_ok as H13; pose proof cmd_stats_ok as H14;
      pose proof cmd_type_ok as H15; pose proof cmd_length_ok as H16.
    all: unfold spec_command;
      first [specialize (H1 l Hc Hl)|specialize (H2 l Hc Hl)|specialize (H3 l Hc Hl)
        |specialize (H4 l Hc Hl)|specialize (H5 l Hc Hl)|specialize (H6 l Hc Hl)
        |specialize (H7 l Hc Hl)|specialize (H8 l Hc Hl)|specialize (H9 l Hc Hl)
        |specialize (H10 l Hc Hl)|specialize (H11 l He Hc Hl)|specialize (H12 l Hc Hl)
        |specialize (H13 l Hc Hl)|specialize (H15 l Hc Hl)|specialize (H16 l Hc Hl)|idtac];
      destruct (r_key_type req) as [[]|], l as [|? [|? ?]]; assumption.
  Qed.
End commands.
