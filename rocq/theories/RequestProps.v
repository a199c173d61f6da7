(** Chains of builder calls, and the lemmas behind C01 - C05 and C60. *)
From Verif Require Import Bytes BytesFacts Utf8 Value CommandId Request WireSpec
  RequestSpec RequestFacts.
From stdpp Require Import gmap list.
From Coq Require Import NArith ZArith Lia.
From Coq Require Import ZifyBool ZifyNat ZifyN.

(** ** Chains of builder calls *)

Definition calls_arity (l : list builder_call) : N :=
  fold_right (fun c n => call_arity c + n)%N 0%N l.

Lemma builder_do_fits e c kt l x :
  env_ok e -> call_empty x = false -> (lenN l + call_arity x <= 255)%N ->
  builder_do e (built c kt l) x = Ok (built c kt (l ++ call_args e x), None).
Proof.
  intros He Hne Hfit. destruct x as [bs|v]; cbn in *.
  - apply builder_bytes_built; [|lia]. intros ->. done.
  - by apply builder_value_fits.
Qed.

Lemma call_args_arity e x : env_ok e -> lenN (call_args e x) = call_arity x.
Proof. destruct x; [done|]. apply value_args_arity. Qed.

Lemma builder_chain_fits e c kt l calls :
  env_ok e -> Forall (fun x => call_empty x = false) calls ->
  (lenN l + calls_arity calls <= 255)%N ->
  builder_chain e (built c kt l) calls
  = Ok (built c kt (l ++ concat (map (call_args e) calls)), None).
Proof.
  intros He H. revert l. induction H as [|x calls Hx _ IH]; intros l Hfit; cbn in *.
  - by rewrite app_nil_r.
  - rewrite builder_do_fits by (done || lia). cbn.
    rewrite IH; [by rewrite <-app_assoc|].
    rewrite lenN_app, call_args_arity by done. fold (calls_arity calls) in Hfit. lia.
Qed.

Lemma builder_chain_bytes_exact e c kt l l' :
  Forall (fun a => a <> []) l' -> (lenN l <= 255)%N ->
  builder_chain e (built c kt l) (map CallBytes l') =
  if (lenN l + lenN l' <=? 255)%N then Ok (built c kt (l ++ l'), None)
  else if (lenN l + lenN l' =? 256)%N && negb (debug e)
       then Ok (built c kt (l ++ l'), None)
  else Panic.
Proof.
  intros H. revert l. induction H as [|a l' Ha Hl' IH]; intros l Hl.
  - cbn. rewrite lenN_nil, N.add_0_r, app_nil_r.
    by replace (lenN l <=? 255)%N with true by lia.
  - cbn [map builder_chain builder_do]. unfold builder_bytes.
    destruct a as [|a0 a]; [done|].
    destruct (N.lt_trichotomy (lenN l) 255) as [E|[E|E]]; [| |lia].
    + rewrite push_built by done. cbn [outmap obind]. rewrite IH.
      * rewrite <-app_assoc, lenN_app, !lenN_cons, lenN_nil. cbn [app].
        by rewrite <-N.add_assoc, N.add_0_r.
      * rewrite lenN_app. change (lenN [a0 :: a]) with 1%N. lia.
    + rewrite push_built_255 by done. rewrite lenN_cons.
      replace (lenN l + (1 + lenN l') <=? 255)%N with false by lia.
      destruct (debug e); cbn [outmap obind negb].
      { by rewrite andb_false_r. }
      destruct l' as [|a1 l'].
      * cbn. rewrite lenN_nil. by replace (lenN l + (1 + 0) =? 256)%N with true by lia.
      * cbn [map builder_chain builder_do]. unfold builder_bytes.
        destruct a1 as [|a10 a1]; [by inversion Hl'|].
        rewrite push_built_full.
        2:{ rewrite lenN_app. change (lenN [a0 :: a]) with 1%N. lia. }
        rewrite lenN_cons.
        by replace (lenN l + (1 + (1 + lenN l')) =? 256)%N with false by lia.
Qed.

Lemma carrying_chain e c kt cnt hb l l' :
  Forall (fun a => a <> []) l' ->
  (cnt + lenN l' <= 255)%N -> (lenN l + lenN l' <= 255)%N ->
  builder_chain e (carrying c kt cnt hb l) (map CallBytes l')
  = Ok (carrying c kt (cnt + lenN l')
          (match l' with [] => hb | _ => cnt + lenN l' end) (l ++ l'), None)%N.
Proof.
  intros H. revert cnt hb l. induction H as [|a l' Ha Hl' IH]; intros cnt hb l Hc Hl.
  - cbn. by rewrite lenN_nil, N.add_0_r, app_nil_r.
  - rewrite lenN_cons in *. cbn [map builder_chain builder_do]. unfold builder_bytes.
    destruct a as [|a0 a]; [done|]. rewrite push_carrying.
    rewrite uadd_ok by (unfold u8_mod; lia). cbn [obind outmap].
    replace (lenN l <? 256)%N with true by lia. cbn [obind outmap].
    rewrite IH by (rewrite ?lenN_app; change (lenN [a0 :: a]) with 1%N; lia).
    rewrite <-app_assoc. cbn [app].
    replace (cnt + 1 + lenN l')%N with (cnt + (1 + lenN l'))%N by lia.
    f_equal. f_equal. destruct l'; [|done]. by rewrite lenN_nil.
Qed.

Lemma builder_of_built c kt l :
  builder_of_request (into_request (built c kt l)) = carrying c kt 0 (lenN l) l.
Proof. done. Qed.

(** ** The statements of C01 - C05, C60 *)

Lemma c01 e c kt l :
  is_simple c = false -> (lenN l <= 255)%N -> Forall (fun a => a <> []) l ->
  exists b, builder_chain e (builder_new_kt c kt) (map CallBytes l) = Ok (b, None) /\
    let r := into_request b in
    r_command r = c /\ r_key_type r = kt /\ carries r l /\
    (l <> [] -> exists a, args_all r = Some a /\ yields a l) /\
    (l <> [] -> exists a, args_from r 1 = Some a /\ yields a (drop 1 l)) /\
    (key_notation_of c <> KNNone -> key r = head l) /\
    (key_notation_of c = KNNone -> key r = None).
Proof.
  intros Hs Hl Hne. rewrite builder_new_kt_built by done.
  rewrite builder_chain_bytes by done. eexists. split; [done|].
  pose proof (built_args c kt l) as Hr.
  cbn [app]. split; [done|]. split; [done|]. split; [done|]. split; [|split; [|split]].
  - intros Hnil. destruct (args_all_collect _ _ Hr Hnil) as (a & Ha & Hc).
    exists a. split; [done|]. rewrite <-Hc. apply collect_yields.
  - intros Hnil. destruct (args_from_1 _ _ Hr Hnil) as (a & Ha & Hc & _).
    exists a. split; [done|]. rewrite <-Hc. apply collect_yields.
  - intros Hk. unfold key. cbn [into_request built carrying r_command b_command].
    destruct Hr as [_ Hr]. destruct (key_notation_of c); try done;
      rewrite Hr; by destruct l.
  - intros Hk. unfold key. cbn [into_request built carrying r_command b_command].
    by rewrite Hk.
Qed.

Lemma c02_format e c kt l b :
  is_simple c = false -> (lenN l <= 255)%N ->
  Forall (fun a => a <> [] /\ lenN a < u32_mod)%N l ->
  builder_chain e (builder_new_kt c kt) (map CallBytes l) = Ok (b, None) ->
  r_buf (into_request b) = wire_request c kt l.
Proof.
  intros Hs Hl Hf. apply Forall_and in Hf as [Hne Hlen].
  rewrite builder_new_kt_built by done.
  rewrite builder_chain_bytes by done. cbn [app]. intros [= <-].
  cbn. unfold wire_request. by rewrite enc_args_wire.
Qed.

Lemma c03 e c kt k v b1 b :
  is_simple c = false -> env_ok e -> value_wf v ->
  builder_bytes e (builder_new_kt c kt) k = Ok (b1, None) ->
  builder_value e b1 v = Ok (b, None) ->
  reads_back (into_request b) v.
Proof.
  intros Hs He Hwf. rewrite builder_new_kt_built by done.
  destruct k as [|k0 k]; [done|]. rewrite builder_bytes_built by done.
  intros [= <-]. intros H. apply builder_value_inv in H as ->.
  eapply reads_back_args; [done|done|]. apply built_args.
Qed.

Lemma c04_fits e c kt calls :
  is_simple c = false -> env_ok e ->
  Forall (fun x => call_empty x = false) calls ->
  (fold_right (fun c n => call_arity c + n) 0 calls <= 255)%N ->
  exists b, builder_chain e (builder_new_kt c kt) calls = Ok (b, None) /\
            carries (into_request b) (concat (map (call_args e) calls)).
Proof.
  intros Hs He Hne Hfit. rewrite builder_new_kt_built by done.
  rewrite builder_chain_fits by done. eexists. split; [done|]. apply built_args.
Qed.

Lemma c04_exact_bytes e c kt l :
  is_simple c = false -> Forall (fun a => a <> []) l ->
  ((lenN l <= 255)%N ->
     exists b, builder_chain e (builder_new_kt c kt) (map CallBytes l) = Ok (b, None)
               /\ carries (into_request b) l) /\
  (lenN l = 256%N -> debug e = true ->
     builder_chain e (builder_new_kt c kt) (map CallBytes l) = Panic) /\
  (lenN l = 256%N -> debug e = false ->
     exists b, builder_chain e (builder_new_kt c kt) (map CallBytes l) = Ok (b, None)
       /\ carries (into_request b) l
       /\ exists h t, r_buf (into_request b) = h ++ [x00] ++ t
                      /\ h = wire_head c kt) /\
  ((256 < lenN l)%N ->
     builder_chain e (builder_new_kt c kt) (map CallBytes l) = Panic).
Proof.
  intros Hs Hne. rewrite builder_new_kt_built by done.
  rewrite builder_chain_bytes_exact by done. rewrite lenN_nil, N.add_0_l. cbn [app].
  split; [|split; [|split]].
  - intros H. replace (lenN l <=? 255)%N with true by lia.
    eexists. split; [done|]. apply built_args.
  - intros H D. rewrite H, D. done.
  - intros H D. rewrite H, D. eexists. split; [done|]. split; [apply built_args|].
    exists (wire_head c kt), (enc_args l). split; [|done]. cbn.
    unfold built, carrying. cbn. rewrite H. done.
  - intros H. replace (lenN l <=? 255)%N with false by lia.
    by replace (lenN l =? 256)%N with false by lia.
Qed.

Lemma c05_readable e c kt l l' :
  is_simple c = false ->
  Forall (fun a => a <> []) l -> Forall (fun a => a <> []) l' ->
  (lenN l + lenN l' <= 255)%N ->
  exists b b', builder_chain e (builder_new_kt c kt) (map CallBytes l) = Ok (b, None) /\
    builder_chain e (builder_of_request (into_request b)) (map CallBytes l')
    = Ok (b', None) /\
    r_command (into_request b') = c /\ r_key_type (into_request b') = kt /\
    carries (into_request b') (l ++ l').
Proof.
  intros Hs Hl Hl' Hlen. rewrite builder_new_kt_built by done.
  rewrite builder_chain_bytes by (done || (rewrite lenN_nil; lia)). cbn [app].
  eexists _, _. split; [done|]. rewrite builder_of_built.
  rewrite carrying_chain by (done || lia). split; [done|].
  split; [done|]. split; [done|]. apply carrying_args.
Qed.

Lemma c05_false e c kt l l' :
  is_simple c = false ->
  Forall (fun a => a <> []) l -> Forall (fun a => a <> []) l' ->
  l <> [] -> l' <> [] -> (lenN l + lenN l' <= 255)%N ->
  exists b b' b'',
    builder_chain e (builder_new_kt c kt) (map CallBytes l) = Ok (b, None) /\
    builder_chain e (builder_of_request (into_request b)) (map CallBytes l')
      = Ok (b', None) /\
    builder_chain e (builder_new_kt c kt) (map CallBytes (l ++ l')) = Ok (b'', None) /\
    r_buf (into_request b') <> r_buf (into_request b'').
Proof.
  intros Hs Hl Hl' Hn Hn' Hlen. rewrite builder_new_kt_built by done.
  rewrite builder_chain_bytes by (done || (rewrite lenN_nil; lia)). cbn [app].
  eexists _, _, _. split; [done|]. rewrite builder_of_built.
  rewrite carrying_chain by (done || lia). split; [done|].
  rewrite builder_chain_bytes;
    [|by apply Forall_app|rewrite lenN_nil, lenN_app; lia].
  cbn [app]. split; [done|]. cbn. intros E.
  apply app_inv_head in E. injection E as E.
  apply lenN_pos in Hn. destruct l'; [done|].
  apply n2b_inj in E; rewrite ?lenN_app in *; lia.
Qed.

Lemma enc_arg_wire a : enc_arg a = wire_arg a.
Proof.
  unfold enc_arg, wire_arg, as_u32. f_equal.
  rewrite <- (be_enc_dec 4 (be_enc 4 (lenN a))) by apply be_enc_len. by rewrite be_dec_enc.
Qed.

Lemma c05_sent e c kt l l' :
  is_simple c = false ->
  Forall (fun a => a <> []) l -> Forall (fun a => a <> []) l' -> l' <> [] ->
  (lenN l + lenN l' <= 255)%N ->
  exists b b', builder_chain e (builder_new_kt c kt) (map CallBytes l) = Ok (b, None) /\
    builder_chain e (builder_of_request (into_request b)) (map CallBytes l')
    = Ok (b', None) /\
    r_buf (into_request b') =
      wire_head c kt ++ [n2b (lenN l')] ++ concat (map wire_arg (l ++ l')).
Proof.
  intros Hs Hl Hl' Hn Hlen. rewrite builder_new_kt_built by done.
  rewrite builder_chain_bytes by (done || (rewrite lenN_nil; lia)). cbn [app].
  eexists _, _. split; [done|]. rewrite builder_of_built.
  rewrite carrying_chain by (done || lia). split; [done|].
  destruct l' as [|a l']; [done|]. rewrite N.add_0_l. cbn [into_request r_buf carrying b_buf].
  unfold enc_args. by rewrite (map_ext _ _ enc_arg_wire).
Qed.

Lemma c60_general r l a rest :
  carries r l -> a_req a = r -> a_to a = lenN l -> (a_idx a <= lenN l)%N ->
  yields a rest -> arguments_len a = (a_idx a + lenN rest)%N.
Proof.
  intros Hr Ha Ht Hi Hy. destruct a as [i t r']. cbn in *. subst.
  assert (rest = span l i (lenN l)) as ->.
  { eapply yields_unique; [done|]. by apply span_yields. }
  unfold arguments_len, span. cbn.
  replace (i <=? lenN l)%N with true by lia.
  unfold lenN in *. rewrite take_length, drop_length. lia.
Qed.

Lemma c03_accepted e c kt k v :
  is_simple c = false -> env_ok e -> k <> [] ->
  value_empty v = false -> (value_arity v <= 254)%N ->
  exists b1 b, builder_bytes e (builder_new_kt c kt) k = Ok (b1, None) /\
               builder_value e b1 v = Ok (b, None).
Proof.
  intros Hs He Hk Hv Ha. rewrite builder_new_kt_built by done.
  rewrite builder_bytes_built by done. eexists _, _. split; [done|].
  apply builder_value_fits; [done| |done]. cbn [app].
  rewrite lenN_cons, lenN_nil. lia.
Qed.

Lemma c04_false :
  (exists l, builder_chain (env_std true) (builder_new CEcho) (map CallBytes l)
             = Panic /\ lenN l = 256%N) /\
  (exists l b, builder_chain (env_std false) (builder_new CEcho) (map CallBytes l)
               = Ok (b, None) /\ lenN l = 256%N
               /\ take 2 (r_buf (into_request b)) = [n2b (command_id_to_u8 CEcho); x00]) /\
  (exists l, builder_chain (env_std false) (builder_new CEcho) (map CallBytes l)
             = Panic /\ lenN l = 257%N) /\
  (exists v b, builder_value (env_std false) (builder_new CEcho) v
               = Ok (b, Some BEValueEmpty) /\ arg_count (into_request b) = 1%N) /\
  (exists m, builder_value (env_std false) (builder_new CEcho) (VMap m) = Panic
             /\ size m = 129) /\
  (exists l b, builder_value (env_std false) (builder_new CEcho) (VList l)
               = Ok (b, None) /\ lenN l = 256%N
               /\ take 2 (r_buf (into_request b)) = [n2b (command_id_to_u8 CEcho); x00]).
Proof.
  split; [|split; [|split; [|split; [|split]]]].
  - exists (replicate 256 [x00]). split; vm_compute; reflexivity.
  - exists (replicate 256 [x00]).
    eexists. split; [vm_compute; reflexivity|]. split; vm_compute; reflexivity.
  - exists (replicate 257 [x00]). split; vm_compute; reflexivity.
  - exists (VList [[x00]; []]).
    eexists. split; [vm_compute; reflexivity|]. vm_compute; reflexivity.
  - exists (list_to_map (map (fun n => (be_enc 1 (N.of_nat n), [])) (seq 0 129))).
    split; vm_compute; reflexivity.
  - exists (replicate 256 [x00]).
    eexists. split; [vm_compute; reflexivity|]. split; vm_compute; reflexivity.
Qed.

Lemma c04_refusals e c kt l v b :
  is_simple c = false -> env_ok e ->
  Forall (fun a => a <> []) l -> (lenN l <= 255)%N ->
  builder_chain e (builder_new_kt c kt) (map CallBytes l) = Ok (b, None) ->
  ((lenN l + value_arity v <= 255)%N -> value_empty v = true ->
     exists b', builder_value e b v = Ok (b', Some BEValueEmpty)) /\
  (forall items, v = VList items -> (lenN items < 256)%N ->
     (255 < lenN l + lenN items)%N ->
     exists b', builder_value e b v = Ok (b', Some BETooManyArguments)
                /\ carries (into_request b') l) /\
  (forall s, v = VSet s -> (size s < 256)%nat ->
     (255 < lenN l + N.of_nat (size s))%N ->
     exists b', builder_value e b v = Ok (b', Some BETooManyArguments)
                /\ carries (into_request b') l).
Proof.
  intros Hs He Hl Hlen. rewrite builder_new_kt_built by done.
  rewrite builder_chain_bytes by (done || (rewrite lenN_nil; lia)). cbn [app].
  intros [= <-]. split; [|split].
  - by apply builder_value_empty.
  - intros li -> H1 H2. eexists. split.
    + eapply builder_value_too_many; [done|reflexivity|lia|lia].
    + apply built_args.
  - intros s -> H1 H2. eexists. split.
    + eapply builder_value_too_many; [done|reflexivity|lia|lia].
    + apply built_args.
Qed.

Lemma args_all_at r l :
  carries r l -> l <> [] -> args_all r = Some (Arguments 0 (lenN l) r).
Proof. intros H Hne. unfold args_all. by rewrite (args_cons r l). Qed.

Lemma span_0 l : span l 0 (lenN l) = l.
Proof.
  unfold span. change (N.to_nat 0) with 0%nat. rewrite drop_0.
  replace (0 <=? lenN l)%N with true by lia. rewrite take_ge; [done|]. unfold lenN. lia.
Qed.

Lemma span_1 l : l <> [] -> span l 1 (lenN l) = drop 1 l.
Proof.
  intros Hne. apply lenN_pos in Hne. unfold span.
  replace (1 <=? lenN l)%N with true by lia. change (N.to_nat 1) with 1%nat.
  rewrite take_ge; [done|]. rewrite drop_length. unfold lenN in *. lia.
Qed.

Lemma c60_fresh r l :
  carries r l -> l <> [] ->
  exists a, args_all r = Some a /\ yields a l /\ arguments_len a = lenN l.
Proof.
  intros H Hne. eexists. split; [by apply args_all_at|]. split; [|done].
  rewrite <-(span_0 l) at 2. by apply span_yields.
Qed.

Lemma c60_false r l :
  carries r l -> l <> [] ->
  exists a a' x,
    (args_from r 1 = Some a /\ yields a (drop 1 l)
     /\ arguments_len a = (1 + lenN (drop 1 l))%N) /\
    (exists a0, args_all r = Some a0 /\ arguments_next a0 = (Some x, a')
     /\ yields a' (drop 1 l) /\ arguments_len a' = (1 + lenN (drop 1 l))%N).
Proof.
  intros H Hne. destruct (args_from_1 _ _ H Hne) as (a & Ha & _ & ->).
  pose proof (span_yields r l 1 (lenN l) H) as Hy. rewrite span_1 in Hy by done.
  assert (Hlen : lenN l = (1 + lenN (drop 1 l))%N).
  { destruct l; [done|]. cbn [drop]. rewrite drop_0. apply lenN_cons. }
  exists (Arguments 1 (lenN l) r), (Arguments 1 (lenN l) r), (default [] (head l)).
  split; [done|]. exists (Arguments 0 (lenN l) r). split; [by apply args_all_at|].
  split; [|done]. unfold arguments_next. cbn.
  destruct l as [|x l]; [done|]. rewrite lenN_cons.
  replace (0 =? 1 + lenN l)%N with false by lia. destruct H as [_ H]. by rewrite H.
Qed.
