(** Lemmas about requests, argument iteration and the builder. *)
From Verif Require Import Bytes BytesFacts Utf8 Value CommandId Request WireSpec
  RequestSpec.
From stdpp Require Import gmap list.
From Coq Require Import NArith ZArith Lia.
From Coq Require Import ZifyBool ZifyNat ZifyN.

Global Arguments arguments_collect : simpl never.
Global Arguments convert_map : simpl never.
Global Arguments convert_set : simpl never.
Global Arguments convert_i64 : simpl never.
Global Arguments convert_f64 : simpl never.
Global Arguments i64_enc : simpl never.

(** ** The arguments of a request *)

Notation req_args := carries.

Lemma req_args_nil b c kt : req_args (Request b c kt []) [].
Proof.
  split; [done|]. intros i. unfold arg. rewrite get_at_lookup. done.
Qed.

Lemma req_args_positions r l : req_args r l -> length (r_positions r) = length l.
Proof. intros [H _]. unfold arg_count, lenN in H. lia. Qed.

Lemma req_args_unique r l1 l2 : req_args r l1 -> req_args r l2 -> l1 = l2.
Proof.
  intros [_ H1] [_ H2]. apply list_eq. intros i.
  specialize (H1 (N.of_nat i)). specialize (H2 (N.of_nat i)).
  rewrite Nnat.Nat2N.id in *. congruence.
Qed.

(** ** Iteration *)

Lemma arg_past r i : (lenN (r_positions r) <= i)%N -> arg r i = None.
Proof.
  intros. unfold arg.
  destruct (get_at (r_positions r) i) eqn:E; [|done].
  apply get_at_some in E. lia.
Qed.

Lemma arguments_next_past a :
  (lenN (r_positions (a_req a)) <= a_idx a)%N ->
  exists a', arguments_next a = (None, a').
Proof.
  intros. unfold arguments_next. destruct (_ =? _)%N; [eauto|].
  rewrite arg_past by done. eauto.
Qed.

Lemma collect_fuel_yields f a :
  (length (r_positions (a_req a)) - N.to_nat (a_idx a) < f)%nat ->
  yields a (arguments_collect_fuel f a).
Proof.
  revert a. induction f as [|f IH]; intros a Hf; [lia|].
  cbn [arguments_collect_fuel].
  destruct (arguments_next a) as [[x|] a'] eqn:E.
  - econstructor; [exact E|]. apply IH.
    unfold arguments_next in E. destruct (N.eqb_spec (a_idx a) (a_to a)); [done|].
    injection E as E <-. cbn.
    destruct (decide (lenN (r_positions (a_req a)) <= a_idx a)%N) as [L|L].
    + rewrite arg_past in E by done. done.
    + unfold lenN in L. lia.
  - by econstructor.
Qed.

(** The fuel of [arguments_collect] always suffices. *)
Lemma collect_yields a : yields a (arguments_collect a).
Proof. apply collect_fuel_yields. unfold arguments_fuel. lia. Qed.

Lemma yields_unique a l1 l2 : yields a l1 -> yields a l2 -> l1 = l2.
Proof.
  intros H1. revert l2. induction H1 as [a a' E|a x a' l E H IH]; intros l2 H2.
  - destruct H2 as [|b y b' l2 E2 H2]; congruence.
  - destruct H2 as [b b' E2|b y b' l2 E2 H2]; [congruence|].
    rewrite E in E2. injection E2 as <- <-. f_equal. by apply IH.
Qed.

(** What an iterator over [idx .. stop] yields. *)
Definition span (l : list bytes) (idx stop : N) : list bytes :=
  if (idx <=? stop)%N
  then take (N.to_nat (stop - idx)) (drop (N.to_nat idx) l)
  else drop (N.to_nat idx) l.

Lemma span_yields r l idx stop :
  req_args r l -> yields (Arguments idx stop r) (span l idx stop).
Proof.
  intros [Hc Ha]. unfold span.
  remember (length l - N.to_nat idx)%nat as n eqn:Hn.
  revert idx Hn. induction n as [|n IH]; intros idx Hn.
  - rewrite drop_ge by lia. rewrite take_nil.
    replace (if (idx <=? stop)%N then [] else []) with (@nil bytes)
      by (by destruct (idx <=? stop)%N).
    destruct (arguments_next_past (Arguments idx stop r)) as [a' E].
    { cbn. unfold arg_count in Hc. rewrite Hc. unfold lenN. lia. }
    by econstructor.
  - destruct (lookup_lt_is_Some_2 l (N.to_nat idx)) as [x Hx]; [lia|].
    destruct (decide (idx = stop)) as [->|Hne].
    + rewrite N.sub_diag, N.leb_refl. cbn.
      econstructor. unfold arguments_next. cbn. rewrite N.eqb_refl. done.
    + assert (E : arguments_next (Arguments idx stop r)
                  = (Some x, Arguments (idx + 1) stop r)).
      { unfold arguments_next. cbn.
        destruct (N.eqb_spec idx stop); [done|]. by rewrite Ha, Hx. }
      specialize (IH (idx + 1)%N ltac:(lia)).
      assert (D : drop (N.to_nat idx) l = x :: drop (N.to_nat (idx + 1)) l).
      { rewrite (drop_S _ x) by done. f_equal. f_equal. lia. }
      rewrite D.
      destruct (N.leb_spec idx stop), (N.leb_spec (idx + 1) stop); try lia.
      * replace (N.to_nat (stop - idx)) with (S (N.to_nat (stop - (idx + 1)))) by lia.
        cbn. econstructor; [exact E|exact IH].
      * econstructor; [exact E|exact IH].
Qed.

Lemma collect_span r l idx stop :
  req_args r l -> arguments_collect (Arguments idx stop r) = span l idx stop.
Proof.
  intros H. eapply yields_unique; [apply collect_yields|].
  by apply span_yields.
Qed.

Lemma args_nil r : req_args r [] -> forall lo hi, args r lo hi = None.
Proof. intros [H _] lo hi. unfold args. by rewrite H. Qed.

Lemma args_cons r l lo hi :
  req_args r l -> l <> [] ->
  args r lo hi =
  Some (Arguments
          (match lo with
           | BExcluded a => a + 1 | BIncluded a => a | BUnbounded => 0 end)
          (match hi with
           | BExcluded a => a | BIncluded a => a + 1 | BUnbounded => lenN l end)
          r)%N.
Proof.
  intros [H _] Hne. unfold args. rewrite H.
  apply lenN_pos in Hne.
  destruct (N.eqb_spec (lenN l) 0); [lia|]. done.
Qed.

Lemma args_from_1 r l :
  req_args r l -> l <> [] ->
  exists a, args_from r 1 = Some a /\ arguments_collect a = drop 1 l
            /\ a = Arguments 1 (lenN l) r.
Proof.
  intros H Hne. unfold args_from. rewrite (args_cons r l) by done.
  eexists. split; [done|]. split; [|done]. rewrite (collect_span r l) by done.
  unfold span. apply lenN_pos in Hne.
  replace (1 <=? lenN l)%N with true by lia.
  rewrite take_ge; [done|]. rewrite drop_length. unfold lenN. lia.
Qed.

Lemma args_all_collect r l :
  req_args r l -> l <> [] ->
  exists a, args_all r = Some a /\ arguments_collect a = l.
Proof.
  intros H Hne. unfold args_all. rewrite (args_cons r l) by done.
  eexists. split; [done|]. rewrite (collect_span r l) by done.
  unfold span. replace (0 <=? lenN l)%N with true by lia.
  change (N.to_nat 0) with 0%nat. rewrite drop_0.
  rewrite take_ge; [done|]. unfold lenN. lia.
Qed.

(** ** Maps and sets from arguments *)

Definition insert_pairs (m : gmap bytes bytes) (l : list (bytes * bytes))
  : gmap bytes bytes :=
  fold_left (fun m kv => <[kv.1 := kv.2]> m) l m.

Lemma convert_map_fuel_spec r l f idx m :
  req_args r l ->
  (N.to_nat idx <= length l)%nat ->
  (length l - N.to_nat idx < f)%nat ->
  convert_map_fuel f (Arguments idx (lenN l) r) m
  = insert_pairs m (pairs_of (drop (N.to_nat idx) l)).
Proof.
  intros [Hc Ha]. revert idx m. induction f as [|f IH]; intros idx m Hi Hf; [lia|].
  cbn [convert_map_fuel]. unfold arguments_next at 1. cbn [a_idx a_to a_req].
  destruct (N.eqb_spec idx (lenN l)) as [->|Hne].
  - unfold arguments_next. cbn. rewrite N.eqb_refl.
    rewrite lenN_nat, drop_all. done.
  - assert (Hlt : (N.to_nat idx < length l)%nat) by (unfold lenN in *; lia).
    destruct (lookup_lt_is_Some_2 l (N.to_nat idx)) as [x Hx]; [lia|].
    rewrite Ha, Hx. unfold arguments_next. cbn [a_idx a_to a_req].
    rewrite (drop_S _ x) by done.
    destruct (N.eqb_spec (idx + 1) (lenN l)) as [E|Hne'].
    + rewrite drop_ge by (unfold lenN in *; lia). done.
    + destruct (lookup_lt_is_Some_2 l (N.to_nat (idx + 1))) as [y Hy];
        [unfold lenN in *; lia|].
      rewrite Ha, Hy.
      rewrite IH; [|unfold lenN in *; lia|unfold lenN in *; lia].
      replace (S (N.to_nat idx)) with (N.to_nat (idx + 1)) by lia.
      rewrite (drop_S l y (N.to_nat (idx + 1))) by done.
      replace (N.to_nat (idx + 1 + 1)) with (S (N.to_nat (idx + 1))) by lia.
      done.
Qed.

Lemma convert_map_spec r l :
  req_args r l -> l <> [] ->
  convert_map (Arguments 1 (lenN l) r) = insert_pairs ∅ (pairs_of (drop 1 l)).
Proof.
  intros H Hne. unfold convert_map, arguments_fuel. cbn [a_req].
  rewrite (convert_map_fuel_spec r l) with (idx := 1%N); [done|done| |].
  - destruct l; [done|]. cbn. lia.
  - rewrite (req_args_positions r l) by done. lia.
Qed.

Lemma insert_pairs_lookup_ne m l k :
  k ∉ l.*1 -> insert_pairs m l !! k = m !! k.
Proof.
  unfold insert_pairs. revert m. induction l as [|[k' v'] l IH]; intros m Hk; [done|].
  cbn in *. rewrite IH by set_solver. rewrite lookup_insert_ne; set_solver.
Qed.

Lemma insert_pairs_perm m l :
  NoDup l.*1 -> insert_pairs m l = list_to_map l ∪ m.
Proof.
  revert m. induction l as [|[k v] l IH]; intros m Hnd.
  - cbn. by rewrite (left_id_L ∅ (∪)).
  - cbn in *. apply NoDup_cons in Hnd as [Hk Hnd].
    unfold insert_pairs in *. cbn. rewrite IH by done.
    rewrite <-insert_union_l.
    rewrite insert_union_r; [done|].
    by apply not_elem_of_list_to_map_1.
Qed.

Lemma insert_pairs_iter e m :
  env_ok e -> insert_pairs ∅ (map_iter e m) = m.
Proof.
  intros He. rewrite insert_pairs_perm by by apply map_iter_nodup.
  rewrite (right_id_L ∅ (∪)).
  rewrite <-(list_to_map_to_list m) at 2.
  apply list_to_map_proper; [by apply map_iter_nodup|]. apply He.
Qed.

Lemma pairs_of_flatten l : pairs_of (flatten_pairs l) = l.
Proof. induction l as [|[k v] l IH]; [done|]. cbn. f_equal. exact IH. Qed.

Lemma convert_set_spec a : convert_set a = list_to_set (arguments_collect a).
Proof.
  unfold convert_set.
  assert (H : forall l s, fold_left (fun (s : gset bytes) x => {[x]} ∪ s) l s
                          = list_to_set l ∪ s).
  { induction l as [|x l IH]; intros s; cbn; [set_solver|]. rewrite IH. set_solver. }
  rewrite H. set_solver.
Qed.

Lemma set_iter_list_to_set e s : env_ok e -> list_to_set (set_iter e s) = s.
Proof.
  intros He. apply set_eq. intros x. rewrite elem_of_list_to_set.
  by apply set_iter_elem.
Qed.

(** ** The builder *)

(** The argument's length field is written modulo 2^32. *)
Definition enc_arg (a : bytes) : bytes := be_enc 4 (as_u32 (lenN a)) ++ a.
Global Arguments enc_arg : simpl never.
Global Arguments wire_arg : simpl never.
Definition enc_args (l : list bytes) : bytes := concat (map enc_arg l).

Lemma enc_arg_wire a : (lenN a < u32_mod)%N -> enc_arg a = wire_arg a.
Proof. intros. unfold enc_arg, wire_arg. by rewrite as_u32_small. Qed.

Lemma enc_args_wire l :
  Forall (fun a => lenN a < u32_mod)%N l -> enc_args l = concat (map wire_arg l).
Proof.
  unfold enc_args. induction 1 as [|x l Hx _ IH]; [done|]. cbn.
  by rewrite IH, enc_arg_wire.
Qed.

Lemma enc_arg_len a : lenN (enc_arg a) = (4 + lenN a)%N.
Proof. unfold enc_arg. rewrite lenN_app, be_enc_lenN. lia. Qed.

Lemma enc_args_app l1 l2 : enc_args (l1 ++ l2) = enc_args l1 ++ enc_args l2.
Proof. unfold enc_args. by rewrite map_app, concat_app. Qed.

Fixpoint ends (off : N) (l : list bytes) : list N :=
  match l with
  | [] => []
  | a :: r => (off + 4 + lenN a)%N :: ends (off + 4 + lenN a)%N r
  end.

Lemma ends_len off l : length (ends off l) = length l.
Proof. revert off. induction l as [|a l IH]; intros; cbn; [done|]. by rewrite IH. Qed.

Lemma ends_app off l1 l2 :
  ends off (l1 ++ l2) = ends off l1 ++ ends (off + lenN (enc_args l1)) l2.
Proof.
  revert off. induction l1 as [|a l1 IH]; intros off; cbn [ends app].
  - unfold enc_args. cbn. rewrite lenN_nil, N.add_0_r. done.
  - rewrite IH. cbn. f_equal. f_equal. f_equal.
    unfold enc_args. cbn. rewrite lenN_app, enc_arg_len. lia.
Qed.

Lemma ends_last off l :
  last (ends off l) =
  match l with [] => None | _ => Some (off + lenN (enc_args l))%N end.
Proof.
  destruct l as [|a l] using rev_ind; [done|].
  rewrite ends_app, last_app. cbn.
  rewrite enc_args_app, lenN_app.
  replace (lenN (enc_args [a])) with (4 + lenN a)%N.
  - destruct (l ++ [a]) eqn:E; [by destruct l|]. f_equal. lia.
  - unfold enc_args. cbn. rewrite app_nil_r, enc_arg_len. done.
Qed.

Lemma ends_lookup off l i a :
  l !! i = Some a ->
  ends off l !! i = Some (off + lenN (enc_args (take i l)) + 4 + lenN a)%N.
Proof.
  intros H. rewrite <-(take_drop_middle l i a H) at 1.
  rewrite ends_app.
  assert (Hi : (i < length l)%nat) by by eapply lookup_lt_Some.
  rewrite lookup_app_r; rewrite ends_len, take_length_le by lia; [|lia].
  rewrite Nat.sub_diag. cbn. done.
Qed.

(** A builder that carries [l], with count field [cnt] and count byte [hb]. *)
Definition carrying (c : command_id) (kt : option key_type) (cnt hb : N)
  (l : list bytes) : builder :=
  Builder cnt (wire_head c kt ++ [n2b hb] ++ enc_args l) c kt
          (ends (kt_base kt + 1) l).

(** A builder all of whose arguments were pushed. *)
Definition built (c : command_id) (kt : option key_type) (l : list bytes)
  : builder := carrying c kt (lenN l mod 256) (lenN l) l.

Lemma wire_head_len c kt : lenN (wire_head c kt) = (1 + kt_base kt)%N.
Proof. by destruct kt. Qed.

Lemma lor_128 c : N.lor (command_id_to_u8 c) 128 = (128 + command_id_to_u8 c)%N.
Proof. by destruct c. Qed.

Lemma builder_new_kt_built c kt :
  is_simple c = false -> builder_new_kt c kt = built c kt [].
Proof.
  intros Hs. unfold builder_new_kt, built, carrying. rewrite Hs.
  destruct kt as [t|]; cbn.
  - rewrite lor_128. done.
  - done.
Qed.

Lemma builder_new_built c : is_simple c = false -> builder_new c = built c None [].
Proof. intros Hs. unfold builder_new, built, carrying. by rewrite Hs. Qed.

Lemma push_carrying e c kt cnt hb l a :
  push_argument e (carrying c kt cnt hb l) a =
  obind (uadd u8_mod (debug e) cnt 1) (fun cnt' =>
  if (lenN l <? 256)%N then Ok (carrying c kt cnt' cnt' (l ++ [a])) else Panic).
Proof.
  unfold push_argument, carrying at 1 2 3 4 5 6 7 8 9 10. cbn [b_buf b_count b_key_type b_command b_positions].
  destruct (uadd u8_mod (debug e) cnt 1) as [cnt'|]; [|done]. cbn [obind].
  unfold set_at. rewrite !lenN_app, wire_head_len.
  replace (1 + kt_base kt <? _)%N with true
    by (rewrite ?lenN_cons, ?be_enc_lenN; lia).
  replace (lenN (ends (kt_base kt + 1) l)) with (lenN l)
    by (unfold lenN; by rewrite ends_len).
  unfold positions_cap. destruct (lenN l <? 256)%N; [|done].
  f_equal. unfold carrying. f_equal.
  - replace (N.to_nat (1 + kt_base kt)) with (length (wire_head c kt) + 0)%nat
      by (pose proof (wire_head_len c kt); unfold lenN in *; lia).
    rewrite <-!app_assoc, insert_app_r. f_equal. cbn. f_equal.
    rewrite enc_args_app. f_equal. unfold enc_args, enc_arg. cbn.
    by rewrite app_nil_r.
  - rewrite ends_app. f_equal. cbn [ends]. f_equal.
    rewrite ends_last. destruct l; [|done].
    unfold enc_args. cbn. rewrite lenN_nil. lia.
Qed.

Lemma push_built e c kt l a :
  (lenN l < 255)%N -> push_argument e (built c kt l) a = Ok (built c kt (l ++ [a])).
Proof.
  intros. unfold built. rewrite push_carrying.
  rewrite N.mod_small by lia. rewrite uadd_ok by (unfold u8_mod; lia).
  cbn [obind]. replace (lenN l <? 256)%N with true by lia.
  rewrite lenN_app. change (lenN [a]) with 1%N.
  rewrite N.mod_small by lia. done.
Qed.

Lemma push_built_255 e c kt l a :
  lenN l = 255%N ->
  push_argument e (built c kt l) a =
  if debug e then Panic else Ok (built c kt (l ++ [a])).
Proof.
  intros H. unfold built. rewrite push_carrying, H.
  change (255 mod 256)%N with 255%N. unfold uadd, u8_mod.
  change (255 + 1 <? 256)%N with false. cbv iota.
  destruct (debug e); [done|]. cbn [obind].
  change (255 <? 256)%N with true. cbv iota.
  rewrite lenN_app, H. unfold carrying. f_equal.
Qed.

Lemma push_built_full e c kt l a :
  (256 <= lenN l)%N -> push_argument e (built c kt l) a = Panic.
Proof.
  intros H. unfold built. rewrite push_carrying.
  destruct (uadd u8_mod (debug e) (lenN l mod 256) 1); [|done]. cbn [obind].
  by replace (lenN l <? 256)%N with false by lia.
Qed.

(** The request of a builder that carries [l] has exactly the arguments [l]. *)
Lemma carrying_args c kt cnt hb l : req_args (into_request (carrying c kt cnt hb l)) l.
Proof.
  split.
  - unfold arg_count, lenN. cbn. by rewrite ends_len.
  - intros i. unfold arg. cbn [into_request carrying r_buf r_positions r_key_type
      b_buf b_positions b_key_type b_command].
    rewrite get_at_lookup.
    destruct (l !! N.to_nat i) as [a|] eqn:Hi.
    2:{ replace (ends (kt_base kt + 1) l !! N.to_nat i) with (@None N); [done|].
        symmetry. apply lookup_ge_None. rewrite ends_len.
        by apply lookup_ge_None. }
    rewrite (ends_lookup _ _ _ a) by done.
    set (pre := take (N.to_nat i) l).
    assert (Hbuf : wire_head c kt ++ [n2b hb] ++ enc_args l
      = (wire_head c kt ++ [n2b hb] ++ enc_args pre ++ be_enc 4 (as_u32 (lenN a)))
        ++ a ++ enc_args (drop (S (N.to_nat i)) l)).
    { rewrite <-(take_drop_middle l _ _ Hi) at 1.
      rewrite enc_args_app. unfold enc_args at 2. cbn. fold (enc_args (drop (S (N.to_nat i)) l)).
      unfold enc_arg. rewrite <-!app_assoc. cbn. rewrite <-!app_assoc. done. }
    assert (Hlen : lenN (wire_head c kt ++ [n2b hb] ++ enc_args pre
                         ++ be_enc 4 (as_u32 (lenN a)))
      = (6 + kt_base kt + lenN (enc_args pre))%N).
    { rewrite !lenN_app, wire_head_len, be_enc_lenN. change (lenN [n2b hb]) with 1%N. lia. }
    rewrite Hbuf. unfold get_range_incl.
    destruct (N.eqb_spec i 0) as [->|Hi0].
    + apply get_range_app_mid; rewrite Hlen; unfold pre; change (lenN (enc_args (take (N.to_nat 0) l))) with 0%N; lia.
    + destruct (lookup_lt_is_Some_2 l (N.to_nat (i - 1))) as [a' Hi'].
      { apply lookup_lt_Some in Hi. lia. }
      rewrite get_at_lookup, (ends_lookup _ _ _ a') by done.
      assert (Hpre : enc_args pre = enc_args (take (N.to_nat (i - 1)) l) ++ enc_arg a').
      { unfold pre. replace (N.to_nat i) with (S (N.to_nat (i - 1))) by lia.
        rewrite (take_S_r _ _ a') by done. rewrite enc_args_app.
        unfold enc_args at 2. cbn. by rewrite app_nil_r. }
      apply get_range_app_mid; rewrite Hlen, Hpre, lenN_app, enc_arg_len; lia.
Qed.

Lemma built_args c kt l : req_args (into_request (built c kt l)) l.
Proof. apply carrying_args. Qed.

Lemma builder_bytes_built e c kt l a :
  a <> [] -> (lenN l < 255)%N ->
  builder_bytes e (built c kt l) a = Ok (built c kt (l ++ [a]), None).
Proof.
  intros Ha Hl. unfold builder_bytes. rewrite push_built by done. by destruct a.
Qed.

Lemma builder_chain_bytes e c kt l l' :
  Forall (fun a => a <> []) l' -> (lenN l + lenN l' <= 255)%N ->
  builder_chain e (built c kt l) (map CallBytes l') = Ok (built c kt (l ++ l'), None).
Proof.
  intros H. revert l. induction H as [|a l' Ha _ IH]; intros l Hl; cbn.
  - by rewrite app_nil_r.
  - rewrite lenN_cons in Hl. rewrite builder_bytes_built by (done || lia). cbn.
    rewrite IH; [by rewrite <-app_assoc|].
    rewrite lenN_app. change (lenN [a]) with 1%N. lia.
Qed.

(** Pushing items and pairs. *)
Lemma push_items_built e check c kt l l' :
  (check = true -> Forall (fun a => a <> []) l') ->
  (lenN l + lenN l' <= 255)%N ->
  push_items e check (built c kt l) l' = Ok (built c kt (l ++ l'), None).
Proof.
  revert l. induction l' as [|a l' IH]; intros l Hne Hl; cbn.
  - by rewrite app_nil_r.
  - rewrite lenN_cons in Hl.
    replace (check && (lenN a =? 0)%N) with false.
    + rewrite push_built by lia. cbn. rewrite IH.
      * by rewrite <-app_assoc.
      * intros E. specialize (Hne E). by inversion Hne.
      * rewrite lenN_app. change (lenN [a]) with 1%N. lia.
    + destruct check; [|done]. specialize (Hne eq_refl). inversion Hne as [|? ? Ha]; subst.
      apply lenN_pos in Ha. symmetry. cbn. apply N.eqb_neq. lia.
Qed.

Lemma push_pairs_built e c kt l l' :
  (lenN l + 2 * lenN l' <= 255)%N ->
  push_pairs e (built c kt l) l' = Ok (built c kt (l ++ flatten_pairs l'), None).
Proof.
  revert l. induction l' as [|[k v] l' IH]; intros l Hl; cbn [push_pairs].
  - cbn. by rewrite app_nil_r.
  - rewrite lenN_cons in Hl. rewrite push_built by lia. cbn [obind].
    rewrite push_built by (rewrite lenN_app; change (lenN [k]) with 1%N; lia).
    cbn [obind]. rewrite IH.
    + by rewrite <-!app_assoc.
    + rewrite !lenN_app. change (lenN [k]) with 1%N. change (lenN [v]) with 1%N. lia.
Qed.

(** ** Values *)

Lemma flatten_pairs_len l : lenN (flatten_pairs l) = (2 * lenN l)%N.
Proof.
  induction l as [|[k v] l IH]; [done|]. unfold flatten_pairs in *. cbn.
  rewrite !lenN_cons, IH. lia.
Qed.

Lemma value_args_arity e v : env_ok e -> lenN (value_args e v) = value_arity v.
Proof.
  intros He. destruct v; cbn [value_args value_arity]; try done.
  - rewrite flatten_pairs_len. unfold lenN. by rewrite map_iter_size.
  - unfold lenN. by rewrite set_iter_size.
Qed.

Lemma value_empty_list l :
  value_empty (VList l) = false <-> Forall (fun a : bytes => a <> []) l.
Proof.
  cbn. induction l as [|x l IH]; cbn; [by split|].
  rewrite orb_false_iff, IH, Forall_cons.
  split; intros [H1 H2]; split; try done.
  - intros ->. done.
  - apply lenN_pos in H1. apply N.eqb_neq. lia.
Qed.

Lemma size_eqb0 n : (n =? 0)%nat = false -> (n <> 0)%nat.
Proof. intros H ->. done. Qed.

(** Everything that fits is added completely, or refused as empty. *)
Lemma builder_value_fits e c kt l v :
  env_ok e ->
  (lenN l + value_arity v <= 255)%N ->
  value_empty v = false ->
  builder_value e (built c kt l) v = Ok (built c kt (l ++ value_args e v), None).
Proof.
  intros He Hfit Hne.
  assert (Hcnt : b_count (built c kt l) = lenN l).
  { cbn. rewrite N.mod_small by lia. done. }
  destruct v as [x|bs|n|z|li|m|s|str]; cbn [builder_value value_args value_arity] in *.
  - rewrite push_built by lia. done.
  - destruct bs; [done|]. rewrite push_built by lia. done.
  - rewrite push_built by lia. done.
  - rewrite push_built by lia. done.
  - unfold would_overfill. rewrite Hcnt. rewrite as_u8_small by (unfold u8_mod; lia).
    replace (256 <=? lenN l + lenN li)%N with false by lia.
    apply push_items_built; [|done]. intros _. by apply value_empty_list.
  - unfold would_overfill. rewrite Hcnt. rewrite as_u8_small by (unfold u8_mod; lia).
    replace (256 <=? lenN l + N.of_nat (size m))%N with false by lia.
    cbn in Hne. rewrite Hne. apply push_pairs_built.
    unfold lenN at 2. rewrite map_iter_size by done. done.
  - unfold would_overfill. rewrite Hcnt. rewrite as_u8_small by (unfold u8_mod; lia).
    replace (256 <=? lenN l + N.of_nat (size s))%N with false by lia.
    cbn in Hne. rewrite Hne. apply push_items_built; [done|].
    unfold lenN at 2. rewrite set_iter_size by done. done.
  - destruct str; [done|]. rewrite push_built by lia. done.
Qed.

Lemma push_items_reject e c kt l l' :
  (lenN l + lenN l' <= 255)%N ->
  existsb (fun x => (lenN x =? 0)%N) l' = true ->
  exists b, push_items e true (built c kt l) l' = Ok (b, Some BEValueEmpty).
Proof.
  revert l. induction l' as [|a l' IH]; intros l Hl Hex; [done|].
  cbn in *. rewrite lenN_cons in Hl.
  destruct (N.eqb_spec (lenN a) 0) as [E|E]; cbn in *; [eauto|].
  rewrite push_built by lia. cbn. apply IH; [|done].
  rewrite lenN_app. change (lenN [a]) with 1%N. lia.
Qed.

Lemma builder_value_empty e c kt l v :
  env_ok e ->
  (lenN l + value_arity v <= 255)%N ->
  value_empty v = true ->
  exists b, builder_value e (built c kt l) v = Ok (b, Some BEValueEmpty).
Proof.
  intros He Hfit Hne.
  assert (Hcnt : b_count (built c kt l) = lenN l).
  { cbn. rewrite N.mod_small by lia. done. }
  destruct v as [x|bs|n|z|li|m|s|str]; cbn [builder_value value_arity] in *; try done.
  - destruct bs; [eauto|done].
  - unfold would_overfill. rewrite Hcnt. rewrite as_u8_small by (unfold u8_mod; lia).
    replace (256 <=? lenN l + lenN li)%N with false by lia.
    by apply push_items_reject.
  - unfold would_overfill. rewrite Hcnt. rewrite as_u8_small by (unfold u8_mod; lia).
    replace (256 <=? lenN l + N.of_nat (size m))%N with false by lia.
    cbn in Hne. rewrite Hne. eauto.
  - unfold would_overfill. rewrite Hcnt. rewrite as_u8_small by (unfold u8_mod; lia).
    replace (256 <=? lenN l + N.of_nat (size s))%N with false by lia.
    cbn in Hne. rewrite Hne. eauto.
  - destruct str; [eauto|done].
Qed.

(** A list or set of fewer than 256 items that does not fit is refused. *)
Lemma builder_value_too_many e c kt l v n :
  (lenN l <= 255)%N ->
  match v with
  | VList li => lenN li
  | VMap m => N.of_nat (size m)
  | VSet s => N.of_nat (size s)
  | _ => 0%N
  end = n ->
  (n < 256)%N -> (255 < lenN l + n)%N ->
  builder_value e (built c kt l) v = Ok (built c kt l, Some BETooManyArguments).
Proof.
  intros Hl Hn H256 Hover.
  assert (Hcnt : b_count (built c kt l) = lenN l).
  { cbn. rewrite N.mod_small by lia. done. }
  destruct v as [x|bs|f|z|li|m|s|str]; cbn [builder_value] in *; try (subst; lia).
  - unfold would_overfill. rewrite Hcnt, Hn, as_u8_small by done.
    by replace (256 <=? lenN l + n)%N with true by lia.
  - unfold would_overfill. rewrite Hcnt, Hn, as_u8_small by done.
    by replace (256 <=? lenN l + n)%N with true by lia.
  - unfold would_overfill. rewrite Hcnt, Hn, as_u8_small by done.
    by replace (256 <=? lenN l + n)%N with true by lia.
Qed.

(** Whatever the builder accepts is carried completely. *)
Lemma push_built_inv e c kt l a b :
  push_argument e (built c kt l) a = Ok b -> b = built c kt (l ++ [a]).
Proof.
  destruct (N.lt_trichotomy (lenN l) 255) as [H|[H|H]].
  - rewrite push_built by done. by intros [= <-].
  - rewrite push_built_255 by done. destruct (debug e); [done|]. by intros [= <-].
  - rewrite push_built_full by lia. done.
Qed.

Lemma push_items_inv e check c kt l l' b :
  push_items e check (built c kt l) l' = Ok (b, None) ->
  b = built c kt (l ++ l').
Proof.
  revert l. induction l' as [|a l' IH]; intros l; cbn [push_items].
  - rewrite app_nil_r. by intros [= <-].
  - destruct (check && _); [done|].
    destruct (push_argument e (built c kt l) a) as [b'|] eqn:E; [|done].
    cbn [obind]. apply push_built_inv in E as ->. intros H.
    apply IH in H. by rewrite <-app_assoc in H.
Qed.

Lemma push_pairs_inv e c kt l l' b :
  push_pairs e (built c kt l) l' = Ok (b, None) ->
  b = built c kt (l ++ flatten_pairs l').
Proof.
  revert l. induction l' as [|[k v] l' IH]; intros l; cbn [push_pairs].
  - cbn. rewrite app_nil_r. by intros [= <-].
  - destruct (push_argument e (built c kt l) k) as [b'|] eqn:E; [|done].
    cbn [obind]. apply push_built_inv in E as ->.
    destruct (push_argument e (built c kt (l ++ [k])) v) as [b'|] eqn:E; [|done].
    cbn [obind]. apply push_built_inv in E as ->. intros H.
    apply IH in H. by rewrite <-!app_assoc in H.
Qed.

Lemma builder_value_inv e c kt l v b :
  builder_value e (built c kt l) v = Ok (b, None) ->
  b = built c kt (l ++ value_args e v).
Proof.
  assert (Hp : forall a, outmap (fun b' => (b', @None builder_error))
                 (push_argument e (built c kt l) a) = Ok (b, None) ->
               b = built c kt (l ++ [a])).
  { intros a. destruct (push_argument e (built c kt l) a) eqn:E; [|done].
    cbn. intros [= ->]. by eapply push_built_inv. }
  destruct v as [x|bs|f|z|li|m|s|str]; cbn [builder_value value_args].
  - apply Hp.
  - destruct bs; [done|apply Hp].
  - apply Hp.
  - apply Hp.
  - destruct (would_overfill _ _); [done|]. apply push_items_inv.
  - destruct (would_overfill _ _); [done|]. destruct (_ =? _)%nat; [done|].
    apply push_pairs_inv.
  - destruct (would_overfill _ _); [done|]. destruct (_ =? _)%nat; [done|].
    apply push_items_inv.
  - destruct str; [done|apply Hp].
Qed.

Lemma convert_i64_enc z : i64_range z -> convert_i64 (i64_enc z) = Some z.
Proof.
  intros. unfold convert_i64, get_range.
  replace (lenN (i64_enc z)) with 8%N by (unfold lenN; by rewrite i64_enc_len).
  change ((0 <=? 8) && (8 <=? 8))%N with true. cbv iota.
  change (N.to_nat 0) with 0. rewrite drop_0, take_ge by (rewrite i64_enc_len; done).
  by rewrite i64_dec_enc.
Qed.

Lemma convert_f64_enc n : (n < u64_mod)%N -> convert_f64 (be_enc 8 n) = Some n.
Proof.
  intros. unfold convert_f64, get_range. rewrite be_enc_lenN.
  change ((0 <=? 8) && (8 <=? N.of_nat 8))%N with true. cbv iota.
  change (N.to_nat 0) with 0. rewrite drop_0, take_ge by (rewrite be_enc_len; done).
  by rewrite be8.
Qed.

Lemma reads_back_args e r k v :
  env_ok e -> value_wf v -> req_args r (k :: value_args e v) -> reads_back r v.
Proof.
  intros He Hwf Hr.
  destruct (args_from_1 r _ Hr) as (a & Ha & Hcol & Hadef); [done|].
  cbn in Hcol. rewrite drop_0 in Hcol.
  assert (Harg : arg r 1 = (k :: value_args e v) !! 1%nat) by apply Hr.
  destruct v as [x|bs|n|z|li|m|s|str]; cbn [value_args reads_back value_wf] in *;
    unfold typed_arg, typed_args; rewrite ?Harg, ?Ha.
  - destruct x; cbn; by rewrite b2n_n2b.
  - done.
  - cbn -[convert_f64]. by rewrite convert_f64_enc.
  - cbn -[convert_i64 i64_enc]. by rewrite convert_i64_enc.
  - eexists. split; [done|]. rewrite <-Hcol. apply collect_yields.
  - rewrite Hadef, (convert_map_spec r _ Hr) by done. cbn [drop].
    by rewrite drop_0, pairs_of_flatten, insert_pairs_iter.
  - by rewrite convert_set_spec, Hcol, set_iter_list_to_set.
  - cbn. unfold convert_str, from_utf8. by rewrite Hwf.
Qed.

(** ** The wire format is unambiguous *)

Lemma wire_args_inj l1 l2 s1 s2 :
  length l1 = length l2 ->
  Forall (fun a => lenN a < u32_mod)%N l1 ->
  Forall (fun a => lenN a < u32_mod)%N l2 ->
  concat (map wire_arg l1) ++ s1 = concat (map wire_arg l2) ++ s2 ->
  l1 = l2 /\ s1 = s2.
Proof.
  revert l2. induction l1 as [|a1 l1 IH]; intros [|a2 l2] Hlen F1 F2 E; try done.
  cbn in E, Hlen. inversion F1; inversion F2; subst.
  unfold wire_arg in E at 1 3. rewrite <-!app_assoc in E.
  apply app_inj_1 in E as [E1 E]; [|by rewrite !be_enc_len].
  apply be_enc_inj in E1; [|by rewrite pow256_4|by rewrite pow256_4].
  apply app_inj_1 in E as [E2 E]; [|unfold lenN in E1; lia].
  apply IH in E as [-> ->]; [|lia|done|done]. by subst.
Qed.

Lemma command_byte_inj c1 c2 :
  command_id_to_u8 c1 = command_id_to_u8 c2 -> c1 = c2.
Proof. destruct c1, c2; cbn; (reflexivity || discriminate). Qed.

Lemma key_type_byte_inj a b : key_type_to_u8 a = key_type_to_u8 b -> a = b.
Proof. destruct a, b; cbn; (reflexivity || discriminate). Qed.

Lemma command_id_lt c : (command_id_to_u8 c < 128)%N.
Proof. destruct c; cbn; lia. Qed.

Lemma key_type_lt t : (key_type_to_u8 t < 256)%N.
Proof. destruct t; cbn; lia. Qed.

Lemma n2b_inj a b : (a < 256)%N -> (b < 256)%N -> n2b a = n2b b -> a = b.
Proof.
  intros Ha Hb E. apply (f_equal b2n) in E.
  by rewrite !b2n_n2b_small in E.
Qed.

Lemma wire_request_inj c1 kt1 l1 c2 kt2 l2 s1 s2 :
  (lenN l1 <= 255)%N -> (lenN l2 <= 255)%N ->
  Forall (fun a => lenN a < u32_mod)%N l1 ->
  Forall (fun a => lenN a < u32_mod)%N l2 ->
  wire_request c1 kt1 l1 ++ s1 = wire_request c2 kt2 l2 ++ s2 ->
  c1 = c2 /\ kt1 = kt2 /\ l1 = l2 /\ s1 = s2.
Proof.
  intros L1 L2 F1 F2 E. unfold wire_request, wire_head in E.
  pose proof (command_id_lt c1). pose proof (command_id_lt c2).
  destruct kt1 as [t1|], kt2 as [t2|]; cbn in E; injection E.
  - intros Ea Ecnt Et Ec.
    apply n2b_inj in Ec; [|lia|lia].
    apply n2b_inj in Et; [|apply key_type_lt|apply key_type_lt].
    apply n2b_inj in Ecnt; [|lia|lia].
    apply wire_args_inj in Ea as [-> ->]; [|unfold lenN in *; lia|done|done].
    apply key_type_byte_inj in Et as ->.
    assert (command_id_to_u8 c1 = command_id_to_u8 c2) as Ec' by lia.
    apply command_byte_inj in Ec' as ->. done.
  - intros _ _ Ec. apply n2b_inj in Ec; lia.
  - intros _ _ Ec. apply n2b_inj in Ec; lia.
  - intros Ea Ecnt Ec.
    apply n2b_inj in Ec; [|lia|lia].
    apply n2b_inj in Ecnt; [|lia|lia].
    apply command_byte_inj in Ec as ->.
    apply wire_args_inj in Ea as [-> ->]; [|unfold lenN in *; lia|done|done]. done.
Qed.
