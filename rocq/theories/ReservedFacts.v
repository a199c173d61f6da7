(** What a client may learn about a reserved key (C35). *)
From Coq Require Import String.
From Verif Require Import Bytes BytesFacts Utf8 Float64 Value CommandId Request Response
  RespContext Metrics Prog Commands EngineSpec WireSpec RequestSpec HistorySpec ReservedSpec
  RequestFacts ResponseFacts RespContextFacts RespProps ProgFacts CommandFacts SafeFacts
  EngineFacts EngineProps.
From stdpp Require Import gmap list.
From Coq Require Import NArith ZArith Lia.
From Coq Require Import ZifyBool ZifyNat ZifyN.

(** Programs whose course does not depend on reserved keys. *)
Fixpoint blind (p : prog) : Prop :=
  match p with
  | PRet _ => True
  | PContains k c => ~ reserved k /\ forall b, blind (c b)
  | PGet k c => ~ reserved k /\ forall v, blind (c v)
  | PInsert _ _ c => blind c
  | PRemove k c => (~ reserved k \/ forall v v', c v = c v') /\ forall v, blind (c v)
  | PKoi k _ _ c => ~ reserved k /\ forall r, blind (c r)
  | PKoiIns _ _ _ c => forall r, blind (c r)
  | PCounter _ c => forall n, blind (c n)
  | PIncr _ _ c => blind c
  end.

Lemma same_insert s s' k v :
  same_outside s s' ->
  same_outside (with_keys s (<[k:=v]> (st_keys s))) (with_keys s' (<[k:=v]> (st_keys s'))).
Proof.
  intros [Hc Hk]. split; [done|]. intros x Hx. unfold with_keys; simpl.
  destruct (decide (x = k)) as [->|]; [by rewrite !lookup_insert|].
  rewrite !lookup_insert_ne by done. auto.
Qed.

Lemma same_delete s s' k :
  same_outside s s' ->
  same_outside (with_keys s (delete k (st_keys s))) (with_keys s' (delete k (st_keys s'))).
Proof.
  intros [Hc Hk]. split; [done|]. intros x Hx. unfold with_keys; simpl.
  destruct (decide (x = k)) as [->|]; [by rewrite !lookup_delete|].
  rewrite !lookup_delete_ne by done. auto.
Qed.

Lemma blind_run p s s' :
  blind p -> same_outside s s' ->
  (run p s).2 = (run p s').2 /\ same_outside (run p s).1 (run p s').1.
Proof.
  revert s s'.
  induction p as [r|k c IH|k c IH|k v c IH|k c IH|k d u c IH|k d u c IH|m c IH|dbg m c IH];
    intros s s' Hb Hs; cbn in Hb; cbn [run].
  - done.
  - destruct Hb as [Hk Hb], Hs as [Hc Hs']. rewrite (Hs' k Hk). by apply IH.
  - destruct Hb as [Hk Hb], Hs as [Hc Hs']. rewrite (Hs' k Hk). by apply IH.
  - apply IH; [done|]. by apply same_insert.
  - destruct Hb as [Hk Hb].
    assert (c (st_keys s !! k) = c (st_keys s' !! k)) as ->.
    { destruct Hk as [Hk|Hk]; [|done]. by rewrite (proj2 Hs k Hk). }
    apply IH; [done|]. by apply same_delete.
  - destruct Hb as [Hk Hb]. rewrite (proj2 Hs k Hk). destruct (u _) as [v' r].
    apply IH; [done|]. by apply same_insert.
  - destruct (u _) as [v' r]. apply IH; [done|]. by apply same_insert.
  - rewrite (proj1 Hs). by apply IH.
  - rewrite (proj1 Hs). destruct (counters_increment _ _ _); [|done].
    apply IH; [done|]. split; [done|]. apply Hs.
Qed.

Lemma blind_bind p f : blind p -> (forall r, blind (f r)) -> blind (pbind p f).
Proof.
  intros Hp Hf. revert Hp.
  induction p as [r|k c IH|k c IH|k v c IH|k c IH|k d u c IH|k d u c IH|m c IH|dbg m c IH];
    cbn; intros Hp; auto; destruct Hp as [Hk Hp]; split; auto.
  destruct Hk as [Hk|Hk]; [by left|]. right. intros v v'. by rewrite (Hk v v').
Qed.

Lemma blind_guarded e k p : (~ reserved k -> blind p) -> blind (guarded e k p).
Proof.
  intros Hp. unfold guarded. destruct (starts_with k reserved_prefix) eqn:Hs; [done|].
  destruct (_ && _); [done|]. apply Hp. intros Hk%reserved_starts. congruence.
Qed.

Lemma blind_koi e k d u : blind (key_or_insert_with e k d u).
Proof. apply blind_guarded. by intros. Qed.

Lemma blind_read {A} e res k (as_ : value -> option A) c : blind (read_variant e res k as_ c).
Proof.
  apply blind_guarded. intros Hk. split; [done|].
  intros [v|]; [|done]. by destruct (as_ v).
Qed.

Lemma blind_set {A} e res k d (as_ : value -> option A) n o out :
  blind (set_with e res k d as_ n o out).
Proof. split; [by right|]. intros _. apply blind_koi. Qed.

Lemma blind_stats l m c : (forall m, blind (c m)) -> blind (stats_loop l m c).
Proof.
  intros Hc. revert m. induction l as [|x l IH]; intros m; cbn; [done|].
  intros [n|]; [destruct (_ <? _)%Z|]; apply IH.
Qed.

Lemma discreet_blind e req res : discreet req = true -> blind (command_prog e req res).
Proof.
  unfold discreet, command_prog.
  destruct (r_command req); try done; intros H.
  Ltac go :=
    match goal with
    | |- blind (key_or_insert_with _ _ _ _) => apply blind_koi
    | |- blind (read_variant _ _ _ _ _) => apply blind_read
    | |- blind (set_with _ _ _ _ _ _ _ _) => apply blind_set
    | |- blind (PRet _) => exact I
    | |- blind (fail _ _) => exact I
    | |- blind (stats_loop _ _ _) => by apply blind_stats
    | |- blind (key_ref _ _ _) =>
      apply blind_guarded; intros ?; split; [done|]; intros [|]
    | |- blind (match ?x with _ => _ end) => destruct x eqn:?
    end.
  all: unfold cmd_append, cmd_decrement, cmd_decrement_by, cmd_echo, cmd_get, cmd_increment,
    cmd_increment_by, cmd_keys, cmd_length, cmd_set, cmd_stats, resolve_type,
    append_bytes, append_list, append_string, increment_float_by, increment_int_by, set_typed;
    try (destruct (r_key_type req) as [kt|] eqn:Hkt; [|done]);
    repeat go.
Qed.

Lemma c35_discreet e s s' req res :
  discreet req = true -> same_outside s s' ->
  (dispatch e s req res).2 = (dispatch e s' req res).2 /\
  same_outside (dispatch e s req res).1 (dispatch e s' req res).1.
Proof.
  intros Hd Hs. apply blind_run; [|done]. apply blind_bind; [by apply discreet_blind|].
  by intros [| |].
Qed.

(** Without a type, the type found at a reserved key shows. *)
Lemma c35_type_shows e s req res c k l :
  env_ok e -> room s -> reserved k -> c ∈ [CAppend; CKeys; CLength] ->
  asks req c None (k :: l) -> (c = CAppend -> l <> []) ->
  (st_keys s !! k = None -> (dispatch e s req res).2 = CPanic) /\
  (forall v, st_keys s !! k = Some v -> kind v = KTInteger ->
   exists err, (dispatch e s req res).2 = CErr err res).
Proof.
  intros He Hr Hk Hc Hq Hl. split.
  - intros Hn.
    destruct (dispatch_crash e s req res c None (k :: l) He Hq Hr (st_keys s)) as [H1 H2]; [|done].
    assert (Hb : bad_key (debug e) k = true) by by rewrite bad_reserved.
    rewrite !elem_of_cons, elem_of_nil in Hc.
    destruct Hc as [->|[->|[->|[]]]]; [destruct l as [|a l]; [by destruct Hl|]|..]; cbn;
      unfold spec_append, spec_keys, spec_length, type_or; by rewrite Hn, Hb.
  - intros v Hv Hi.
    exists (match c with CAppend => EKeyTypeDifferent | _ => EKeyTypeInvalid end).
    refine (proj1 (dispatch_err e s req res c None (k :: l) He Hq Hr (st_keys s) _ _)).
    rewrite !elem_of_cons, elem_of_nil in Hc.
    destruct Hc as [->|[->|[->|[]]]]; [destruct l as [|a l]; [by destruct Hl|]|..]; cbn;
      unfold spec_append, spec_keys, spec_length, type_or; by rewrite Hv, Hi.
Qed.
