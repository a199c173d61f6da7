(** Proofs for C109. *)
From Verif Require Import Bytes BytesFacts Value CommandId Request RequestSpec RequestFacts Response Prog Commands
  WireSpec EngineSpec HistorySpec CommandFacts EngineFacts Client ClientSpec ClientFacts NotationSpec.
From stdpp Require Import gmap list.
From Coq Require Import NArith ZArith.
From Coq.Init Require Import Byte.
From Coq Require Import Lia ZifyBool ZifyNat ZifyN.

(** ** What is not read *)

(** Two requests that agree on their first [n] positions and on their number. *)
Definition agree (n : nat) (r1 r2 : request) : Prop :=
  r_command r1 = r_command r2 /\ r_key_type r1 = r_key_type r2 /\
  forall i, (i < N.of_nat n)%N -> arg r1 i = arg r2 i.

Lemma agree_key n r1 r2 : (0 < n) -> agree n r1 r2 -> key r1 = key r2.
Proof. intros Hn (Hc & _ & H). unfold key. rewrite Hc, (H 0%N) by lia. done. Qed.

Lemma agree_typed {A} n r1 r2 i (conv : bytes -> option A) :
  (i < N.of_nat n)%N -> agree n r1 r2 -> typed_arg conv r1 i = typed_arg conv r2 i.
Proof. intros Hn (_ & _ & H). unfold typed_arg. by rewrite H. Qed.

(** How many positions a command reads at most, where there is a number. *)
Definition reads (c : command_id) : option nat :=
  match c with
  | CStats => Some 0
  | CDecrement | CGet | CIncrement | CKeys | CType | CDelete | CLength => Some 1
  | CDecrementBy | CIncrementBy | CRename => Some 2
  | CAppend | CSet | CEcho | CExists | CIs => None
  end.

Lemma agree_prog e n r1 r2 res :
  agree n r1 r2 -> reads (r_command r1) = Some n -> command_prog e r1 res = command_prog e r2 res.
Proof.
  intros Ha Hr. pose proof Ha as (Hc & Hk & H). unfold command_prog. rewrite <-Hc.
  pose proof (fun Hn => agree_key n r1 r2 Hn Ha) as K0.
  pose proof (fun Hn => agree_typed n r1 r2 1 convert_i64 Hn Ha) as K1.
  pose proof (fun Hn => agree_typed n r1 r2 1 convert_f64 Hn Ha) as K2.
  destruct (r_command r1) eqn:E; cbn in Hr; try done; injection Hr as <-;
    unfold cmd_decrement, cmd_decrement_by, cmd_delete, cmd_get, cmd_increment, cmd_increment_by, cmd_keys,
      cmd_length, cmd_rename, cmd_stats, cmd_type, wants_float, resolve_type;
    rewrite ?Hk; try rewrite K0 by lia; try rewrite K1 by lia; try rewrite K2 by lia; try done.
  by rewrite !H by lia.
Qed.

Lemma matters_reads c n i : reads c = Some n -> matters c i -> i < n.
Proof.
  intros Hr (e & s & kt & p & x & y & q & r1 & r2 & res & He & Hs & Hp & Hl & H1 & H2 & Hd).
  destruct (le_lt_dec n i) as [Hn|]; [|done]. destruct Hd.
  destruct H1 as (Hc1 & Hk1 & _ & Ha1), H2 as (Hc2 & Hk2 & _ & Ha2).
  unfold dispatch, dispatch_prog. rewrite (agree_prog e n r1 r2 res); [done| |by rewrite Hc1].
  split; [by rewrite Hc1, Hc2|]. split; [by rewrite Hk1, Hk2|]. intros j Hj.
  rewrite Ha1, Ha2, !lookup_app_l by lia. done.
Qed.

(** ** What is read *)

Definition req_of (c : command_id) (kt : option key_type) (l : list bytes) : request :=
  into_request (built c kt l).

Lemma read_here c i e s kt p x y q :
  env_ok e -> room s -> length p = i -> (lenN (p ++ x :: q) <= 255)%N ->
  dispatch e s (req_of c kt (p ++ x :: q)) [] <> dispatch e s (req_of c kt (p ++ y :: q)) [] ->
  matters c i.
Proof.
  intros He Hs Hp Hl Hd. exists e, s, kt, p, x, y, q, (req_of c kt (p ++ x :: q)), (req_of c kt (p ++ y :: q)), [].
  split_and!; try done; apply built_asks.
Qed.

Lemma room_of ks : room (Store ks ∅).
Proof. intros m. unfold count. cbn. rewrite lookup_empty. cbn. lia. Qed.

(** Different values are different answers. *)
Lemma apart e s c kt (l1 l2 : list bytes) v1 v2 :
  env_ok e -> room s -> sound v1 -> sound v2 -> v1 <> v2 ->
  (spec_command (debug e) (engine_stats s) c kt l1 (st_keys s)).2 = AVal v1 ->
  (spec_command (debug e) (engine_stats s) c kt l2 (st_keys s)).2 = AVal v2 ->
  dispatch e s (req_of c kt l1) [] <> dispatch e s (req_of c kt l2) [].
Proof.
  intros He Hs Hv1 Hv2 Hne H1 H2 Heq.
  assert (K : forall (l : list bytes) v, sound v ->
    (spec_command (debug e) (engine_stats s) c kt l (st_keys s)).2 = AVal v ->
    (mem_send e s (built c kt l)).2 = ROk v).
  { intros l v Hv Hsp. destruct (built_asks c kt l) as (Hc & Hk & Hcar).
    destruct (dispatch_answered e s (req_of c kt l) [] l He Hcar Hs) as [Ha _].
    unfold req_of in Ha. rewrite Hc, Hk, Hsp in Ha. cbn [answered] in Ha.
    destruct (responds_sound e s (built c kt l) v Hv Ha) as (s' & E & _). by rewrite E. }
  pose proof (K l1 v1 Hv1 H1) as E1. pose proof (K l2 v2 Hv2 H2) as E2.
  unfold mem_send in E1, E2. unfold req_of in Heq. rewrite Heq in E1. rewrite E1 in E2.
  by injection E2.
Qed.

(** ** Lists of one-byte items *)

Lemma ones_len (l : list bytes) : Forall (fun b => lenN b = 1%N) l -> lenN (payload_list l) = (2 + 5 * lenN l)%N.
Proof.
  intros H. unfold payload_list. rewrite lenN_app, be_enc_lenN. f_equal.
  induction H as [|b l Hb _ IH]; [done|]. cbn [map concat].
  rewrite lenN_app, IH, lenN_app, be_enc_lenN, Hb, lenN_cons. lia.
Qed.

Lemma ones_sound (l : list bytes) :
  Forall (fun b => lenN b = 1%N) l -> l <> [] -> (lenN l <= 255)%N -> sound (VList l).
Proof.
  intros H Hn Hl. split; [done|]. split; [|split_and!; congruence].
  split; [unfold u16_mod; lia|]. rewrite ones_len by done. unfold u32_mod. lia.
Qed.

Definition kk : bytes := [x6b].
Definition zz : bytes := [x7a].

Lemma ones_replicate n (b : bytes) : lenN b = 1%N -> Forall (fun b : bytes => lenN b = 1%N) (replicate n b).
Proof. intros H. apply Forall_replicate. done. Qed.

Lemma ones_sound' i (b : bytes) : i < 255 -> lenN b = 1%N -> sound (VList (replicate i kk ++ [b])).
Proof.
  intros Hi Hb. apply ones_sound.
  - apply Forall_app. split; [by apply ones_replicate|by apply Forall_singleton].
  - by destruct (replicate i kk).
  - unfold lenN. rewrite app_length, replicate_length. cbn. lia.
Qed.

Lemma apart_lists i : VList (replicate i kk ++ [kk]) <> VList (replicate i kk ++ [zz]).
Proof. intros [= H]. by apply app_inv_head in H. Qed.

Lemma short i (b : bytes) : i < 255 -> (lenN (replicate i kk ++ b :: []) <= 255)%N.
Proof. intros Hi. unfold lenN. rewrite app_length, replicate_length. cbn. lia. Qed.

Definition one_key (v : value) : store := Store {[kk := v]} ∅.

Lemma echo_reads i : i < 255 -> matters CEcho i.
Proof.
  intros Hi. eapply (read_here CEcho i (env_std false) (Store ∅ ∅) None (replicate i kk) kk zz []).
  - apply env_std_ok.
  - apply room_of.
  - apply replicate_length.
  - by apply short.
  - apply (apart _ _ _ _ _ _ (VList (replicate i kk ++ [kk])) (VList (replicate i kk ++ [zz])));
      [apply env_std_ok|apply room_of|by apply ones_sound'|by apply ones_sound'|apply apart_lists|done|done].
Qed.

Lemma bool_sound b : sound (VBoolean b).
Proof. by split_and!. Qed.

Lemma forallb_reps (f : bytes -> bool) i b : f kk = true -> forallb f (replicate i kk ++ [b]) = f b.
Proof. intros Hk. rewrite forallb_app. cbn. induction i as [|i IH]; cbn; [by rewrite andb_true_r|by rewrite Hk]. Qed.

Lemma exists_reads i : i < 255 -> matters CExists i.
Proof.
  intros Hi. eapply (read_here CExists i (env_std false) (one_key (VInteger 5)) None (replicate i kk) kk zz []).
  - apply env_std_ok.
  - apply room_of.
  - apply replicate_length.
  - by apply short.
  - assert (K : forall b : bytes, (spec_command (debug (env_std false)) (engine_stats (one_key (VInteger 5))) CExists None
      (replicate i kk ++ [b]) (st_keys (one_key (VInteger 5)))).2
      = AVal (VBoolean (is_present (st_keys (one_key (VInteger 5))) b))).
    { intros b. rewrite <-(forallb_reps (is_present (st_keys (one_key (VInteger 5)))) i b) by done.
      unfold spec_command. by destruct (replicate i kk ++ [b]) eqn:E; [destruct (replicate i kk)|]. }
    apply (apart _ _ _ _ _ _ (VBoolean true) (VBoolean false));
      [apply env_std_ok|apply room_of|apply bool_sound|apply bool_sound|done|by rewrite K|by rewrite K].
Qed.

Lemma is_reads i : i < 255 -> matters CIs i.
Proof.
  intros Hi. eapply (read_here CIs i (env_std false) (one_key (VInteger 5)) (Some KTInteger) (replicate i kk) kk zz []).
  - apply env_std_ok.
  - apply room_of.
  - apply replicate_length.
  - by apply short.
  - assert (K : forall b : bytes, (spec_command (debug (env_std false)) (engine_stats (one_key (VInteger 5))) CIs
      (Some KTInteger) (replicate i kk ++ [b]) (st_keys (one_key (VInteger 5)))).2
      = AVal (VBoolean (has_kind (st_keys (one_key (VInteger 5))) KTInteger b))).
    { intros b. rewrite <-(forallb_reps (has_kind (st_keys (one_key (VInteger 5))) KTInteger) i b) by done.
      unfold spec_command. by destruct (replicate i kk ++ [b]) eqn:E; [destruct (replicate i kk)|]. }
    apply (apart _ _ _ _ _ _ (VBoolean true) (VBoolean false));
      [apply env_std_ok|apply room_of|apply bool_sound|apply bool_sound|done|by rewrite K|by rewrite K].
Qed.

Ltac at_concrete s kt p x y q :=
  apply (read_here _ _ (env_std false) s kt p x y q);
  [apply env_std_ok|apply room_of|reflexivity|by vm_compute|
   let H := fresh in intros H; apply (f_equal snd) in H; vm_compute in H; discriminate H].

Lemma increment_reads : matters CIncrement 0.
Proof. at_concrete (one_key (VInteger 5)) (@None key_type) (@nil bytes) kk zz (@nil bytes). Qed.
Lemma decrement_reads : matters CDecrement 0.
Proof. at_concrete (one_key (VInteger 5)) (@None key_type) (@nil bytes) kk zz (@nil bytes). Qed.
Lemma get_reads : matters CGet 0.
Proof. at_concrete (one_key (VInteger 5)) (@None key_type) (@nil bytes) kk zz (@nil bytes). Qed.
Lemma type_reads : matters CType 0.
Proof. at_concrete (one_key (VInteger 5)) (@None key_type) (@nil bytes) kk zz (@nil bytes). Qed.
Lemma delete_reads : matters CDelete 0.
Proof. at_concrete (one_key (VInteger 5)) (@None key_type) (@nil bytes) kk zz (@nil bytes). Qed.
Lemma length_reads : matters CLength 0.
Proof. at_concrete (one_key (VBytes kk)) (@None key_type) (@nil bytes) kk zz (@nil bytes). Qed.
Lemma keys_reads : matters CKeys 0.
Proof. at_concrete (one_key (VMap {[kk := kk]})) (@None key_type) (@nil bytes) kk zz (@nil bytes). Qed.
Lemma increment_by_reads i : i < 2 -> matters CIncrementBy i.
Proof.
  intros Hi. destruct i as [|[|i]]; [| |lia].
  - at_concrete (one_key (VInteger 5)) (@None key_type) (@nil bytes) kk zz [i64_enc 1].
  - at_concrete (one_key (VInteger 5)) (@None key_type) [kk] (i64_enc 1) (i64_enc 2) (@nil bytes).
Qed.
Lemma decrement_by_reads i : i < 2 -> matters CDecrementBy i.
Proof.
  intros Hi. destruct i as [|[|i]]; [| |lia].
  - at_concrete (one_key (VInteger 5)) (@None key_type) (@nil bytes) kk zz [i64_enc 1].
  - at_concrete (one_key (VInteger 5)) (@None key_type) [kk] (i64_enc 1) (i64_enc 2) (@nil bytes).
Qed.
Lemma rename_reads i : i < 2 -> matters CRename i.
Proof.
  intros Hi. destruct i as [|[|i]]; [| |lia].
  - at_concrete (one_key (VInteger 5)) (@None key_type) (@nil bytes) kk zz [kk ++ kk].
  - at_concrete (one_key (VInteger 5)) (@None key_type) [kk] zz (kk ++ kk) (@nil bytes).
Qed.

Lemma set_reads i : i < 255 -> matters CSet i.
Proof.
  intros Hi. destruct i as [|i].
  { apply (read_here _ _ (env_std false) (Store ∅ ∅) (Some KTBytes) [] kk zz [kk]);
      [apply env_std_ok|apply room_of|reflexivity|by vm_compute|].
    intros H. apply (f_equal (fun o => is_present (st_keys o.1) kk)) in H. vm_compute in H. discriminate H. }
  eapply (read_here CSet (S i) (env_std false) (Store ∅ ∅) (Some KTList) (replicate (S i) kk) kk zz []).
  - apply env_std_ok.
  - apply room_of.
  - apply replicate_length.
  - by apply short.
  - assert (K : forall b : bytes, (spec_command (debug (env_std false)) (engine_stats (Store ∅ ∅)) CSet
      (Some KTList) (replicate (S i) kk ++ [b]) ∅).2 = AVal (VList (replicate i kk ++ [b]))).
    { intros b. cbn [replicate app]. unfold spec_command. destruct (replicate i kk ++ [b]) eqn:E; [by destruct i|done]. }
    apply (apart _ _ _ _ _ _ (VList (replicate i kk ++ [kk])) (VList (replicate i kk ++ [zz])));
      [apply env_std_ok|apply room_of|apply ones_sound'; [lia|done]|apply ones_sound'; [lia|done]|apply apart_lists
      |apply K|apply K].
Qed.

Lemma append_reads i : i < 255 -> matters CAppend i.
Proof.
  intros Hi. destruct i as [|i].
  { apply (read_here _ _ (env_std false) (Store ∅ ∅) (Some KTBytes) [] kk zz [kk]);
      [apply env_std_ok|apply room_of|reflexivity|by vm_compute|].
    intros H. apply (f_equal (fun o => is_present (st_keys o.1) kk)) in H. vm_compute in H. discriminate H. }
  eapply (read_here CAppend (S i) (env_std false) (Store ∅ ∅) (Some KTList) (replicate (S i) kk) kk zz []).
  - apply env_std_ok.
  - apply room_of.
  - apply replicate_length.
  - by apply short.
  - apply (apart _ _ _ _ _ _ (VList (replicate i kk ++ [kk])) (VList (replicate i kk ++ [zz])));
      [apply env_std_ok|apply room_of|apply ones_sound'; [lia|done]|apply ones_sound'; [lia|done]|apply apart_lists
      |done|done].
Qed.

(** ** The declarations *)

Lemma c109_exact c i :
  i < 255 -> c <> CAppend -> c <> CSet -> c <> CDelete -> c <> CLength ->
  matters c i <-> declares c i.
Proof.
  intros Hi H1 H2 H3 H4. split.
  - intros Hm. destruct c; try done; unfold declares; cbn; try done;
      (eapply matters_reads in Hm; [exact Hm|reflexivity]).
  - unfold declares. destruct c; try done; cbn; intros Hd; try lia;
      try (replace i with 0 by lia);
      auto using echo_reads, exists_reads, is_reads, increment_reads, decrement_reads, get_reads, type_reads, keys_reads,
        increment_by_reads, decrement_by_reads, rename_reads.
Qed.

Lemma c109_more c i :
  i < 255 -> c = CAppend \/ c = CSet -> matters c i /\ (declares c i <-> i < 2).
Proof. intros Hi [->| ->]; split; auto using append_reads, set_reads; done. Qed.

Lemma c109_fewer c i :
  c = CDelete \/ c = CLength -> (matters c i <-> i < 1) /\ (declares c i <-> i < 2).
Proof.
  intros [->| ->]; (split; [|done]); split; try (intros Hm; eapply matters_reads in Hm; [exact Hm|reflexivity]);
    intros Hi; replace i with 0 by lia; auto using delete_reads, length_reads.
Qed.

(** ** Leaving something out *)

Lemma c109_left_out e s req res c kt l :
  env_ok e -> room s -> asks req c kt l -> leaves_out c l ->
  c <> CAppend -> c <> CDelete -> c <> CLength -> c <> CEcho ->
  exists err, (dispatch e s req res).2 = CErr err res /\ st_keys (dispatch e s req res).1 = st_keys s.
Proof.
  intros He Hs (Hc & Hk & Hcar) (i & Hi & Hl) H1 H2 H3 H4.
  destruct (dispatch_answered e s req res l He Hcar Hs) as [Ha Hks]. rewrite Hc, Hk in Ha, Hks.
  assert (K : exists err, spec_command (debug e) (engine_stats s) c kt l (st_keys s) = (st_keys s, AErr err)).
  { destruct l as [|a [|b l]]; destruct c; cbn in Hl; try done; cbn in Hi; try lia;
      cbn; eauto; destruct kt as [[]|]; cbn; eauto; done. }
  destruct K as [err K]. rewrite K in Ha, Hks. cbn in Ha, Hks. exists err. split; [done|].
  apply Hks. rewrite Ha. done.
Qed.
