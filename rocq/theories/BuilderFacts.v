(** The lemmas behind the exact form of C04. *)
From Verif Require Import Bytes BytesFacts Utf8 Value CommandId Request WireSpec
  RequestSpec RequestFacts RequestProps BuilderSpec.
From stdpp Require Import gmap list.
From Coq Require Import NArith ZArith Lia.
From Coq Require Import ZifyBool ZifyNat ZifyN.

Lemma push_exact e c kt l a :
  (lenN l <= room e)%N ->
  push_argument e (built c kt l) a =
  if (room e <? lenN (l ++ [a]))%N then Panic else Ok (built c kt (l ++ [a])).
Proof.
  intros H. rewrite lenN_app. change (lenN [a]) with 1%N. unfold room in *.
  destruct (N.lt_trichotomy (lenN l) 255) as [E|[E|E]].
  - rewrite push_built by done. destruct (debug e).
    + by replace (255 <? lenN l + 1)%N with false by lia.
    + by replace (256 <? lenN l + 1)%N with false by lia.
  - rewrite push_built_255, E by done. by destruct (debug e).
  - destruct (debug e); [lia|]. rewrite push_built_full by lia.
    by replace (256 <? lenN l + 1)%N with true by lia.
Qed.

Lemma push_items_exact e c kt l l' :
  (lenN l <= room e)%N ->
  push_items e false (built c kt l) l' =
  if (room e <? lenN (l ++ l'))%N then Panic else Ok (built c kt (l ++ l'), None).
Proof.
  revert l. induction l' as [|a l' IH]; intros l H; cbn [push_items andb].
  - rewrite app_nil_r. by replace (room e <? lenN l)%N with false by lia.
  - rewrite push_exact by done. destruct (N.ltb_spec (room e) (lenN (l ++ [a]))) as [E|E].
    + cbn. rewrite lenN_app in *. rewrite lenN_cons. change (lenN [a]) with 1%N in *.
      by replace (room e <? lenN l + (1 + lenN l'))%N with true by lia.
    + cbn [obind]. rewrite IH by done. by rewrite <-app_assoc.
Qed.

Lemma push_list_exact e c kt l l' :
  (lenN l <= room e)%N ->
  push_items e true (built c kt l) l' =
  if (room e <? lenN (l ++ before_empty l'))%N then Panic
  else Ok (built c kt (l ++ before_empty l'),
           if existsb (fun x => (lenN x =? 0)%N) l' then Some BEValueEmpty else None).
Proof.
  revert l. induction l' as [|a l' IH]; intros l H; cbn [push_items andb existsb].
  - cbn. rewrite app_nil_r. by replace (room e <? lenN l)%N with false by lia.
  - destruct a as [|a0 a].
    { cbn. rewrite app_nil_r. by replace (room e <? lenN l)%N with false by lia. }
    replace (lenN (a0 :: a) =? 0)%N with false by (rewrite lenN_cons; lia).
    cbn [before_empty orb].
    rewrite push_exact by done.
    destruct (N.ltb_spec (room e) (lenN (l ++ [a0 :: a]))) as [E|E].
    + cbn. rewrite lenN_app in *. rewrite lenN_cons. change (lenN [a0 :: a]) with 1%N in *.
      by replace (room e <? lenN l + (1 + lenN (before_empty l')))%N with true by lia.
    + cbn [obind]. rewrite IH by done. by rewrite <-app_assoc.
Qed.

Lemma push_pairs_items e b l :
  push_pairs e b l = push_items e false b (flatten_pairs l).
Proof.
  revert b. induction l as [|[k v] l IH]; intros b; [done|].
  cbn [push_pairs flatten_pairs map concat app push_items andb fst snd].
  destruct (push_argument e b k) as [b1|]; [|done]. cbn [obind].
  destruct (push_argument e b1 v) as [b2|]; [|done]. cbn [obind]. apply IH.
Qed.

(** One call. *)
Lemma builder_do_exact e c kt l x :
  env_ok e -> (lenN l <= room e)%N ->
  builder_do e (built c kt l) x =
  if (255 <? lenN l mod 256 + counted x mod 256)%N
  then Ok (built c kt l, Some BETooManyArguments)
  else if (room e <? lenN (l ++ pushed e x))%N then Panic
  else Ok (built c kt (l ++ pushed e x), complaint x).
Proof.
  intros He H.
  assert (Hmod : (lenN l mod 256 < 256)%N) by (apply N.mod_lt; lia).
  assert (Hscalar : counted x = 0%N ->
    (255 <? lenN l mod 256 + counted x mod 256)%N = false).
  { intros ->. rewrite N.mod_0_l by lia. lia. }
  assert (Hone : forall a,
    outmap (fun b' => (b', @None builder_error)) (push_argument e (built c kt l) a) =
    if (room e <? lenN (l ++ [a]))%N then Panic
    else Ok (built c kt (l ++ [a]), None)).
  { intros a. rewrite push_exact by done. destruct (room e <? lenN (l ++ [a]))%N; reflexivity. }
  assert (Hnone : (room e <? lenN (l ++ []))%N = false).
  { rewrite app_nil_r. lia. }
  assert (Hcheck : forall n, would_overfill (built c kt l) (as_u8 n)
                             = (255 <? lenN l mod 256 + n mod 256)%N).
  { intros n. unfold would_overfill, as_u8. cbn [built carrying b_count]. unfold u8_mod. lia. }
  destruct x as [bs|v]; cbn [builder_do].
  - rewrite (Hscalar eq_refl). unfold builder_bytes, complaint. destruct bs as [|b0 bs].
    + cbn [pushed call_empty]. by rewrite Hnone, app_nil_r.
    + cbn [call_empty]. replace (lenN (b0 :: bs) =? 0)%N with false by (rewrite lenN_cons; lia).
      apply Hone.
  - destruct v as [b|bs|f|z|li|m|s|str]; cbn [builder_value];
      unfold complaint; cbn [call_empty value_empty].
    + rewrite (Hscalar eq_refl). apply Hone.
    + rewrite (Hscalar eq_refl). destruct bs as [|b0 bs]; cbn [pushed].
      * by rewrite Hnone, app_nil_r.
      * apply Hone.
    + rewrite (Hscalar eq_refl). apply Hone.
    + rewrite (Hscalar eq_refl). apply Hone.
    + rewrite Hcheck. cbn [counted pushed]. destruct (255 <? _)%N; [done|].
      rewrite push_list_exact by done. by destruct (existsb _ _).
    + rewrite Hcheck. cbn [counted pushed]. destruct (255 <? _)%N; [done|].
      cbn [call_args value_args].
      destruct (size m =? 0)%nat eqn:E.
      * assert (lenN (flatten_pairs (map_iter e m)) = 0%N) as E0.
        { pose proof (value_args_arity e (VMap m) He) as A. cbn in A. lia. }
        destruct (flatten_pairs (map_iter e m)); [|rewrite lenN_cons in E0; lia].
        by rewrite Hnone, app_nil_r.
      * rewrite push_pairs_items. by apply push_items_exact.
    + rewrite Hcheck. cbn [counted pushed]. destruct (255 <? _)%N; [done|].
      cbn [call_args value_args].
      destruct (size s =? 0)%nat eqn:E.
      * assert (lenN (set_iter e s) = 0%N) as E0.
        { pose proof (value_args_arity e (VSet s) He) as A. cbn in A. lia. }
        destruct (set_iter e s); [|rewrite lenN_cons in E0; lia].
        by rewrite Hnone, app_nil_r.
      * by apply push_items_exact.
    + rewrite (Hscalar eq_refl). destruct str as [|b0 bs]; cbn [pushed].
      * by rewrite Hnone, app_nil_r.
      * apply Hone.
Qed.

Lemma builder_chain_exact e c kt l calls :
  env_ok e -> (lenN l <= room e)%N ->
  builder_chain e (built c kt l) calls =
  match chain_end e l calls with
  | None => Panic
  | Some (l', err) => Ok (built c kt l', err)
  end.
Proof.
  intros He. revert l. induction calls as [|x calls IH]; intros l H; [done|].
  cbn [builder_chain chain_end]. rewrite builder_do_exact by done.
  destruct (255 <? _)%N; [done|].
  destruct (N.ltb_spec (room e) (lenN (l ++ pushed e x))) as [E|E]; [done|].
  cbn [obind]. destruct (complaint x); [done|]. by apply IH.
Qed.

Lemma c04_exact e c kt calls :
  is_simple c = false -> env_ok e ->
  match chain_end e [] calls with
  | None => builder_chain e (builder_new_kt c kt) calls = Panic
  | Some (l, err) =>
    exists b, builder_chain e (builder_new_kt c kt) calls = Ok (b, err) /\
      carries (into_request b) l /\
      r_buf (into_request b)
      = wire_head c kt ++ [n2b (lenN l)] ++ concat (map wire_arg l)
  end.
Proof.
  intros Hs He. rewrite builder_new_kt_built by done.
  rewrite builder_chain_exact; [|done|rewrite lenN_nil; lia].
  destruct (chain_end e [] calls) as [[l err]|]; [|done].
  eexists. split; [done|]. split; [apply built_args|].
  cbn [into_request r_buf built carrying b_buf].
  unfold enc_args. by rewrite (map_ext _ _ enc_arg_wire).
Qed.
