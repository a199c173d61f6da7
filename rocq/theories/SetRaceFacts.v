(** Clients that set the same key at the same time: proofs (C114). *)
From Verif Require Import Bytes BytesFacts Utf8 Float64 Value CommandId Request Response
  Metrics Prog Commands EngineSpec WireSpec RequestSpec RequestFacts HistorySpec ProgFacts
  CommandFacts SafeFacts EngineFacts EngineProps HistoryFacts Locks LockSpec LockScripts LockScriptSpec
  Concurrent ConcSpec ConcFacts ConcProps
  Scripts LinSpec LinFacts KeyLinSpec KeyLin KeyLinFacts IsoSpec IsoFacts ScriptInv LockScriptFacts SetRaceSpec.
From stdpp Require Import gmap list.
From Coq Require Import NArith ZArith Lia.
From Coq Require Import ZifyBool ZifyNat ZifyN.

(** ** One Set *)

Lemma value_of_kind t l v : value_of t l = Some v -> kind v = t.
Proof.
  destruct l as [|a l]; [done|]. cbn. destruct t; try (by intros [= <-]).
  - destruct a; [done|]. by intros [= <-].
  - destruct (arg_float a); [|done]. by intros [= <-].
  - destruct (arg_int a); [|done]. by intros [= <-].
  - destruct (utf8_valid a); [|done]. by intros [= <-].
Qed.

(** What the update of a Set of [v] does to what it finds. *)
Definition upd_ok (e : env) (res : bytes) (v : value) (upd : value -> value * cres) : Prop :=
  forall w,
  (kind w = kind v -> (exists b, write_value e res v = Ok b /\ upd w = (v, COk b)) \/
     (write_value e res v = Panic /\ (upd w = (v, CPanic) \/ upd w = (w, CPanic)))) /\
  (kind w <> kind v -> upd w = (w, CErr EKeyTypeDifferent res)).

Lemma set_with_upd {A} e res k dflt (as_ : value -> option A) v kept out : ordinary k ->
  (forall w, match as_ w with Some _ => kind w = kind v | None => kind w <> kind v end) ->
  out = write_value e res v ->
  exists f upd, set_with e res k dflt as_ v kept out = PRemove k f /\
    (forall o, f o = PKoi k dflt upd PRet) /\ upd_ok e res v upd.
Proof.
  intros Hk Has ->. unfold set_with. eexists _, _. split; [done|]. split.
  - intros o. unfold key_or_insert_with, guarded.
    pose proof (ordinary_ok (debug e) k Hk) as Hb. rewrite bad_key_guard in Hb.
    apply orb_false_iff in Hb as [-> ->]. done.
  - intros w. specialize (Has w). unfold with_variant. destruct (as_ w) as [a|].
    + split; [|done]. intros _. destruct (write_value e res v) as [b|]; [left; by exists b|right].
      split; [done|]. destruct kept; auto.
    + split; [done|]. done.
Qed.

Lemma set_typed_cases e req res k l t : carries req (k :: l) -> r_command req = CSet -> l <> [] ->
  ordinary k ->
  match value_of t l with
  | None => set_typed e req res k t = PRet (CErr EArgumentRetrieval res)
  | Some v => exists f upd, set_typed e req res k t = PRemove k f /\
      (forall o, f o = PKoi k (blank t) upd PRet) /\ upd_ok e res v upd
  end.
Proof.
  intros Hl Hc Hne Hk. destruct (spec_key_some req CSet k l) as (_ & _ & Ha & Hargs & Hcol); try done.
  destruct l as [|a l]; [done|]. cbn [head] in Ha.
  unfold set_typed, typed_arg, typed_args. rewrite ?Ha, ?Hargs.
  destruct t; cbn [value_of].
  - apply (set_with_upd e res k (blank KTBytes) as_bytes (VBytes a)); [done| |done]. by intros [].
  - destruct a as [|b a]; [done|]. cbn [convert_bool].
    eapply (set_with_upd e res k (blank KTBoolean) as_boolean (VBoolean _)); [done| |done]. by intros [].
  - rewrite convert_f64_spec. destruct (arg_float a) as [x|]; cbn [fmap option_fmap option_map]; [|done].
    apply (set_with_upd e res k (blank KTFloat) as_float (VFloat x)); [done| |done]. by intros [].
  - rewrite convert_i64_spec. destruct (arg_int a) as [x|]; cbn [fmap option_fmap option_map]; [|done].
    apply (set_with_upd e res k (blank KTInteger) as_integer (VInteger x)); [done| |done]. by intros [].
  - unfold convert_str, from_utf8. destruct (utf8_valid a); [|done].
    apply (set_with_upd e res k (blank KTString) as_string (VString a)); [done| |done]. by intros [].
  - rewrite Hcol. apply (set_with_upd e res k (blank KTList) as_list (VList (a :: l))); [done| |done]. by intros [].
  - rewrite (convert_map_spec req (k :: a :: l)) by done. cbn [drop]. rewrite alternate_spec.
    eapply (set_with_upd e res k (blank KTMap) as_map (VMap _)); [done| |done]. by intros [].
  - rewrite convert_set_spec, Hcol.
    eapply (set_with_upd e res k (blank KTSet) as_set (VSet _)); [done| |done]. by intros [].
Qed.

Section race.
  Context (k : bytes) (scripts : list (list call)) (s0 : store) (T : key_type) (same : Prop).
  Hypothesis Hk : ordinary k.
  Hypothesis Honly : only_set k scripts.
  Hypothesis Henv : envs_ok scripts.
  Hypothesis Hsame : same -> forall c kt l, issued scripts c -> asks (c_req c) CSet kt (k :: l) -> kt = Some T.

  (** The outcome of a Set. *)
  Definition outcome (c : call) (r : cres) : Prop :=
    (exists v, spelt k c v /\ responds (c_env c) (c_res c) v r) \/
    (r = CErr EArgumentRetrieval (c_res c) /\ exists kt l t, asks (c_req c) CSet kt (k :: l) /\
       (kt = None \/ kt = Some t) /\ value_of t l = None) \/
    (r = CErr EKeyTypeDifferent (c_res c) /\ ~ same).

  Definition late (c : call) (q : prog) : Prop :=
    exists v upd, spelt k c v /\ upd_ok (c_env c) (c_res c) v upd /\
      (q = PKoi k (blank (kind v)) upd PRet \/ q = PKoiIns k (blank (kind v)) upd PRet).

  Definition early (c : call) (q : prog) : Prop :=
    (exists v upd f, spelt k c v /\ upd_ok (c_env c) (c_res c) v upd /\ q = PRemove k f /\
       forall o, f o = PKoi k (blank (kind v)) upd PRet) \/
    (exists err, q = PRet (CErr err (c_res c)) /\ outcome c (CErr err (c_res c))).

  Definition phase (c : call) (q : prog) : Prop :=
    (exists f, q = PGet k f /\ forall o, early c (f o)) \/ early c q \/ late c q \/
    (exists r, q = PRet r /\ outcome c r).

  Definition cphase (c : call) (x : tstate) : Prop :=
    match x with TRun q => phase c q | TDone r => outcome c r end.

  Lemma early_typed c kt l t : asks (c_req c) CSet kt (k :: l) -> (kt = None \/ kt = Some t) -> l <> [] ->
    early c (set_typed (c_env c) (c_req c) (c_res c) k t).
  Proof.
    intros Hq Hkt Hl. destruct Hq as (Hcmd & Hkt' & Hc).
    pose proof (set_typed_cases (c_env c) (c_req c) (c_res c) k l t Hc Hcmd Hl Hk) as H.
    destruct (value_of t l) as [v|] eqn:Hv.
    - destruct H as (f & upd & E & Hf & Hu). left. exists v, upd, f.
      split; [by exists kt, l, t|]. split; [done|]. split; [done|].
      by rewrite (value_of_kind _ _ _ Hv).
    - right. exists EArgumentRetrieval. split; [done|]. right. left. split; [done|]. by exists kt, l, t.
  Qed.

  Lemma phase_start c : set_of k c -> phase c (command_prog (c_env c) (c_req c) (c_res c)).
  Proof.
    intros (kt & l & Hq). pose proof Hq as (Hcmd & Hkt & Hc). unfold command_prog. rewrite Hcmd.
    unfold cmd_set. destruct (spec_key_some (c_req c) CSet k l) as (-> & _ & -> & _); try done.
    destruct l as [|a l]; cbn [head].
    { right. left. right. exists EArgumentRetrieval. split; [done|]. right. left. split; [done|].
      exists kt, [], (default KTBytes kt). split; [done|]. split; [|done]. destruct kt; auto. }
    unfold resolve_type. rewrite Hkt. destruct kt as [t|].
    - right. left. apply (early_typed c (Some t) (a :: l)); auto.
    - left. eexists. split; [done|]. intros o. apply (early_typed c None (a :: l)); auto.
  Qed.

  (** What each call is at. *)
  Definition now_of (vs : list view) (ij : nat * nat) : option tstate :=
    match vs !! ij.1 with
    | Some (d, w) => match d !! ij.2 with
                     | Some r => Some (TDone r)
                     | None => if decide (ij.2 = length d) then w else None
                     end
    | None => None
    end.

  Lemma now_of_here vs i d w : vs !! i = Some (d, w) -> now_of vs (i, length d) = w.
  Proof.
    intros H. unfold now_of. cbn. rewrite H. rewrite lookup_ge_None_2 by lia. by rewrite decide_True.
  Qed.

  Lemma now_of_step vs i d w x' : vs !! i = Some (d, w) ->
    forall ij, now_of (<[i := (d, Some x')]> vs) ij =
      if decide (ij = (i, length d)) then Some x' else now_of vs ij.
  Proof.
    intros H [i' j]. unfold now_of. cbn [fst snd]. destruct (decide (i' = i)) as [->|Hne].
    - rewrite list_lookup_insert by (by eapply lookup_lt_Some). rewrite H.
      destruct (decide ((i, j) = (i, length d))) as [[= ->]|Hn].
      + rewrite lookup_ge_None_2 by lia. by rewrite decide_True.
      + destruct (d !! j); [done|]. rewrite !decide_False; [done|congruence..].
    - rewrite list_lookup_insert_ne by done. rewrite decide_False by congruence. done.
  Qed.

  Lemma now_of_return vs i d x r : vs !! i = Some (d, Some x) ->
    forall ij, now_of (<[i := (d ++ [r], None)]> vs) ij =
      if decide (ij = (i, length d)) then Some (TDone r) else now_of vs ij.
  Proof.
    intros H [i' j]. unfold now_of. cbn [fst snd]. destruct (decide (i' = i)) as [->|Hne].
    - rewrite list_lookup_insert by (by eapply lookup_lt_Some). rewrite H.
      destruct (decide ((i, j) = (i, length d))) as [[= ->]|Hn].
      + rewrite lookup_app_r by lia. by rewrite Nat.sub_diag.
      + assert (j <> length d) by congruence.
        rewrite (decide_False (P := j = length d)) by done.
        destruct (decide (j < length d)) as [Hlt|Hge].
        * rewrite lookup_app_l by done. destruct (d !! j); [done|]. by destruct (decide _).
        * rewrite (lookup_ge_None_2 d) by lia. rewrite lookup_ge_None_2 by (rewrite app_length; cbn; lia).
          by destruct (decide _).
    - rewrite list_lookup_insert_ne by done. rewrite decide_False by congruence. done.
  Qed.

  (** Has the Set changed the key, or may it be about to? *)
  Definition touched (x : tstate) : Prop :=
    match x with
    | TRun (PKoi _ _ _ _) | TRun (PKoiIns _ _ _ _) | TRun (PRet (COk _)) | TDone (COk _) => True
    | _ => False
    end.
  Definition ret (x : tstate) (r : cres) : Prop := x = TRun (PRet r) \/ x = TDone r.

  Definition setter (N : nat * nat -> option tstate) ij c x : Prop :=
    call_at scripts ij = Some c /\ set_of k c /\ N ij = Some x.

  Definition good_get (c : call) (r : cres) : Prop :=
    exists now, may_hold k scripts s0 now /\
      match now with
      | Some w => responds (c_env c) (c_res c) w r
      | None => r = CErr EKeyNonexistent (c_res c)
      end.
  Definition is_get (c : call) : Prop := exists l, asks (c_req c) CGet None (k :: l).
  Definition gphase (c : call) (x : tstate) : Prop :=
    x = TRun (command_prog (c_env c) (c_req c) (c_res c)) \/ exists r, ret x r /\ good_get c r.

  Context (bf : nat * nat -> nat * nat -> Prop).

  Definition core (N : nat * nat -> option tstate) (o : option value) : Prop :=
    (o = st_keys s0 !! k /\ forall ij c x, setter N ij c x -> ~ touched x) \/
    (exists w c x v r, setter N w c x /\ spelt k c v /\ ret x r /\ is_ok r = true /\
       responds (c_env c) (c_res c) v r /\ o = Some v /\
       forall b c' x', bf w b -> setter N b c' x' -> ~ touched x') \/
    (exists ij c q, setter N ij c (TRun q) /\
       match q with
       | PKoi _ d _ _ => o = None \/ o = Some d
       | PKoiIns _ _ _ _ => o = None
       | _ => False
       end) \/
    (exists ij c x, setter N ij c x /\ ret x CPanic).

  Definition inv (N : nat * nat -> option tstate) (s : store) : Prop :=
    (forall ij c x, setter N ij c x -> cphase c x) /\
    (forall ij c x, call_at scripts ij = Some c -> is_get c -> N ij = Some x -> gphase c x) /\
    may_hold k scripts s0 (st_keys s !! k) /\
    (same -> (exists ij c q, setter N ij c (TRun q) /\ late c q) ->
       match st_keys s !! k with Some w => kind w = T | None => True end) /\
    (forall a b, bf a b -> exists r, N a = Some (TDone r)) /\
    core N (st_keys s !! k).

  Lemma inv_ext N N' s : (forall ij, N ij = N' ij) -> inv N s -> inv N' s.
  Proof.
    intros E (H1 & H2 & H3 & H4 & H5 & H6).
    assert (Hs : forall ij c x, setter N' ij c x <-> setter N ij c x).
    { intros. unfold setter. by rewrite E. }
    split_and!.
    - intros ij c x H%Hs. by eapply H1.
    - intros ij c x Ha Hb. rewrite <-E. eauto.
    - done.
    - intros Hsm (ij & c & q & H%Hs & Hl). apply H4; [done|]. by exists ij, c, q.
    - intros a b H. rewrite <-E. eauto.
    - destruct H6 as [(A & B)|[(w & c & x & v & r & A & B & C & D & F & G & H)|[(ij & c & q & A & B)|(ij & c & x & A & B)]]].
      + left. split; [done|]. intros ij c x H%Hs. by eapply B.
      + right. left. exists w, c, x, v, r. split; [by apply Hs|]. split_and!; try done.
        intros b c' x' Hb H'%Hs. by eapply H.
      + right. right. left. exists ij, c, q. split; [by apply Hs|done].
      + right. right. right. exists ij, c, x. split; [by apply Hs|done].
  Qed.

  Definition upd (N : nat * nat -> option tstate) ij x : nat * nat -> option tstate :=
    fun a => if decide (a = ij) then Some x else N a.

  Lemma setter_upd N ij x a c y : setter (upd N ij x) a c y <->
    (a = ij /\ call_at scripts ij = Some c /\ set_of k c /\ y = x) \/ (a <> ij /\ setter N a c y).
  Proof.
    unfold setter, upd. destruct (decide (a = ij)) as [->|Hne]; naive_solver.
  Qed.

  (** A step that leaves the key as it is and does not bring a Set on. *)
  Lemma inv_quiet N s s' ij c x' : inv N s -> call_at scripts ij = Some c ->
    st_keys s' !! k = st_keys s !! k ->
    (forall r, N ij = Some (TDone r) -> x' = TDone r) ->
    (set_of k c -> cphase c x' /\
       (touched x' -> exists x, N ij = Some x /\ touched x) /\
       (forall q, x' = TRun q -> ~ late c q) /\
       (forall x r, N ij = Some x -> ret x r -> ret x' r) /\
       (forall q, N ij = Some (TRun q) ->
          match q with
          | PKoi _ d _ _ => st_keys s !! k <> None /\ st_keys s !! k <> Some d
          | PKoiIns _ _ _ _ => st_keys s !! k <> None
          | _ => True
          end)) ->
    (is_get c -> gphase c x') ->
    inv (upd N ij x') s'.
  Proof.
    intros (H1 & H2 & H3 & H4 & H5 & H6) Hc Es Hdone Hset Hget.
    assert (Hone : forall c', call_at scripts ij = Some c' -> c' = c) by congruence.
    unfold inv. rewrite Es. split_and!.
    - intros a c' y [(-> & Hc' & Hw & ->)|(Hne & H)]%setter_upd; [|by eapply H1].
      apply Hone in Hc' as ->. by apply Hset.
    - intros a c' y Hc' Hg. unfold upd. destruct (decide (a = ij)) as [->|Hne]; [|by eapply H2].
      intros [= <-]. apply Hone in Hc' as ->. by apply Hget.
    - done.
    - intros Hsm (a & c' & q & [(-> & Hc' & Hw & Eq)|(Hne & H)]%setter_upd & Hl).
      + apply Hone in Hc' as ->. destruct (Hset Hw) as (_ & _ & Hn & _). by destruct (Hn q).
      + apply H4; [done|]. by exists a, c', q.
    - intros a b Hb. destruct (H5 a b Hb) as [r Hr]. unfold upd.
      destruct (decide (a = ij)) as [->|Hne]; [|eauto]. exists r. f_equal. by apply Hdone.
    - destruct H6 as [(A & B)|[(w & cw & x & v & r & A & B & C & D & F & G & H)|[(a & c' & q & A & B)|(a & c' & x & A & B)]]].
      + left. split; [done|]. intros a c' y [(-> & Hc' & Hw & ->)|(Hne & H)]%setter_upd; [|by eapply B].
        apply Hone in Hc' as ->. intros Ht. destruct (Hset Hw) as (_ & Hto & _). destruct (Hto Ht) as (x & Hx & Htx).
        by destruct (B ij c x).
      + right. left.
        assert (Hlater : forall b c' x', bf w b -> setter (upd N ij x') b c' x' -> True) by done.
        assert (Hb : forall b c1 x1, bf w b -> setter (upd N ij x') b c1 x1 -> ~ touched x1).
        { intros b c1 x1 Hbf [(-> & Hc' & Hw & ->)|(Hne & Hs)]%setter_upd; [|by eapply H].
          apply Hone in Hc' as ->. intros Ht. destruct (Hset Hw) as (_ & Hto & _).
          destruct (Hto Ht) as (y & Hy & Hty). by destruct (H ij c y). }
        destruct (decide (w = ij)) as [->|Hne].
        * destruct A as (A1 & A2 & A3). apply Hone in A1 as ->.
          exists ij, c, x', v, r. split_and!; try done.
          -- apply setter_upd. left. done.
          -- destruct (Hset A2) as (_ & _ & _ & Hr & _). by eapply Hr.
        * exists w, cw, x, v, r. split_and!; try done. apply setter_upd. by right.
      + right. right. left. destruct (decide (a = ij)) as [->|Hne].
        * destruct A as (A1 & A2 & A3). apply Hone in A1 as ->.
          destruct (Hset A2) as (_ & _ & _ & _ & Hn). specialize (Hn q A3).
          destruct q; try done. destruct Hn as [Hn1 Hn2]. by destruct B.
        * exists a, c', q. split; [|done]. apply setter_upd. by right.
      + right. right. right. destruct (decide (a = ij)) as [->|Hne].
        * destruct A as (A1 & A2 & A3). apply Hone in A1 as ->. exists ij, c, x'.
          split; [apply setter_upd; by left|]. destruct (Hset A2) as (_ & _ & _ & Hr & _). by eapply Hr.
        * exists a, c', x. split; [|done]. apply setter_upd. by right.
  Qed.

  Lemma early_not_late c q : early c q -> ~ late c q.
  Proof. intros [(? & ? & ? & _ & _ & -> & _)|(? & -> & _)] (? & ? & _ & _ & [?|?]); done. Qed.
  Lemma early_untouched c q : early c q -> ~ touched (TRun q).
  Proof. intros [(? & ? & ? & _ & _ & -> & _)|(? & -> & _)]; cbn; auto. Qed.
  Lemma early_phase c q : early c q -> phase c q.
  Proof. intros H. right. by left. Qed.

  Lemma spelt_kind c v : same -> issued scripts c -> spelt k c v -> kind v = T.
  Proof.
    intros Hsm Hi (kt & l & t & Hq & Hkt & Hv). rewrite (value_of_kind _ _ _ Hv).
    pose proof (Hsame Hsm _ _ _ Hi Hq) as ->. destruct Hkt as [?|[= ->]]; done.
  Qed.

  Lemma blank_kind t : kind (blank t) = t.
  Proof. by destruct t. Qed.

  (** A step of a Set that changes the key. *)
  Lemma inv_change N s s' ij c q q' : inv N s -> call_at scripts ij = Some c -> set_of k c ->
    N ij = Some (TRun q) -> phase c q' ->
    (same -> match st_keys s' !! k with Some w => kind w = T | None => True end) ->
    may_hold k scripts s0 (st_keys s' !! k) ->
    core (upd N ij (TRun q')) (st_keys s' !! k) ->
    inv (upd N ij (TRun q')) s'.
  Proof.
    intros (H1 & H2 & H3 & H4 & H5 & H6) Hc Hw Hn Hp Hsm Hmay Hcore.
    assert (Hone : forall c', call_at scripts ij = Some c' -> c' = c) by congruence.
    split_and!; [..|done].
    - intros a c' y [(-> & Hc' & _ & ->)|(Hne & H)]%setter_upd; [|by eapply H1].
      by apply Hone in Hc' as ->.
    - intros a c' y Hc' Hg. unfold upd. destruct (decide (a = ij)) as [->|Hne]; [|by eapply H2].
      apply Hone in Hc' as ->. destruct Hw as (? & ? & Hq1 & _), Hg as (? & Hq2 & _). congruence.
    - done.
    - intros Hs _. by apply Hsm.
    - intros a b Hb. destruct (H5 a b Hb) as [r Hr]. unfold upd.
      destruct (decide (a = ij)) as [->|Hne]; [congruence|eauto].
  Qed.

  Lemma get_step c s q' s' : is_get c -> env_ok (c_env c) -> may_hold k scripts s0 (st_keys s !! k) ->
    pstep (command_prog (c_env c) (c_req c) (c_res c)) s = Some (q', s') ->
    exists r, q' = PRet r /\ good_get c r.
  Proof.
    intros (l & Hcmd & Hkt & Hcar) He Hm. unfold command_prog. rewrite Hcmd. unfold cmd_get, key_ref, guarded.
    destruct (spec_key_some (c_req c) CGet k l) as (-> & _); try done.
    pose proof (ordinary_ok (debug (c_env c)) k Hk) as Hb. rewrite bad_key_guard in Hb.
    apply orb_false_iff in Hb as [-> ->]. cbn [pstep]. rewrite Hkt. intros [= <- <-].
    destruct (st_keys s !! k) as [v|] eqn:Hv.
    - eexists. split; [done|]. exists (Some v). split; [done|]. by apply responds_copy.
    - eexists. split; [done|]. exists None. split; done.
  Qed.

  Lemma inv_step N s s' ij c q q' : inv N s -> call_at scripts ij = Some c -> N ij = Some (TRun q) ->
    within (uses (c_req c)) (may_write (c_req c)) (r_command (c_req c) = CStats) q ->
    pstep q s = Some (q', s') -> inv (upd N ij (TRun q')) s'.
  Proof.
    intros Hinv Hc Hn Hwi Hst. pose proof Hinv as (H1 & H2 & H3 & H4 & H5 & H6).
    assert (Hi : issued scripts c) by (by exists ij).
    assert (Hnd : forall r, N ij = Some (TDone r) -> TRun q' = TDone r) by (intros r E; congruence).
    destruct (within_pstep _ _ _ _ _ _ _ Hwi Hst) as [_ Hkeep].
    assert (Hget : is_get c -> gphase c (TRun q')).
    { intros Hg. destruct (H2 ij c _ Hc Hg Hn) as [[= ->]|(r & [[= ->]|?] & _)]; [|done|done].
      right. destruct (get_step _ _ _ _ Hg (Henv _ Hi) H3 Hst) as (r & -> & Hr).
      exists r. split; [by left|done]. }
    destruct (decide (r_command (c_req c) = CSet /\ arg (c_req c) 0 = Some k)) as [[Hcmd Ha]|Hno].
    2: { assert (Hns : ~ set_of k c).
      { intros (kt & l & Hq). apply Hno. split; [by destruct Hq|]. by eapply asks_arg0. }
      eapply inv_quiet; try done. apply Hkeep. intros Hw. by apply Hns, Honly. }
    assert (Hw : set_of k c).
    { apply Honly; [done|]. split; [by rewrite Hcmd|]. by left. }
    destruct (H1 ij c (TRun q)) as [(f & -> & Hf)|[[(v & u & f & Hsp & Hu & -> & Hf)|(err & -> & _)]|[(v & u & Hsp & Hu & [->| ->])|(r & -> & _)]]];
      try done.
    - cbn in Hst. injection Hst as <- <-. specialize (Hf (st_keys s !! k)).
      eapply inv_quiet; try done. intros _. split; [by apply early_phase|].
      split; [intros Ht; by destruct (early_untouched _ _ Hf)|].
      split; [intros ? [= <-]; by apply early_not_late|].
      split; [|intros ? E; rewrite Hn in E; by injection E as <-].
      intros x r E. rewrite Hn in E. injection E as <-. intros [?|?]; done.
    - cbn in Hst. injection Hst as <- <-. rewrite Hf. eapply inv_change; try done.
      + right. right. left. exists v, u. auto.
      + intros _. by rewrite st_keys_with, lookup_delete.
      + rewrite st_keys_with, lookup_delete. right. by left.
      + rewrite st_keys_with, lookup_delete. right. right. left. eexists ij, c, _.
        split; [apply setter_upd; by left|]. by left.
    - cbn in Hst. destruct (st_keys s !! k) as [w|] eqn:Hkw.
      2: { injection Hst as <- <-. eapply inv_change; try done.
        + right. right. left. exists v, u. auto.
        + intros _. by rewrite Hkw.
        + rewrite Hkw. right. by left.
        + rewrite Hkw. right. right. left. eexists ij, c, _. split; [apply setter_upd; by left|]. done. }
      destruct (Hu w) as [Hu1 Hu2]. destruct (decide (kind w = kind v)) as [Hkd|Hkd].
      + assert (Hresp : responds (c_env c) (c_res c) v (cres_of (write_value (c_env c) (c_res c) v)))
          by (apply (responds_copy (c_env c) (c_res c) v); by apply Henv).
        destruct (Hu1 Hkd) as [(b & Eb & Eu)|(Eb & Eu)].
        * rewrite Eu in Hst. injection Hst as <- <-. rewrite Eb in Hresp.
          eapply inv_change; try done.
          -- right. right. right. exists (COk b). split; [done|]. left. by exists v.
          -- intros Hsm. rewrite st_keys_with, lookup_insert. by eapply spelt_kind.
          -- rewrite st_keys_with, lookup_insert. right. right. exists c, v. auto.
          -- rewrite st_keys_with, lookup_insert. right. left.
             exists ij, c, (TRun (PRet (COk b))), v, (COk b).
             split; [apply setter_upd; by left|]. split; [done|]. split; [by left|]. split; [done|].
             split; [done|]. split; [done|]. intros b' c' x' Hb _. destruct (H5 _ _ Hb) as [r Hr]. congruence.
        * assert (Hst' : exists w', (w' = v \/ w' = w) /\ q' = PRet CPanic /\ s' = with_keys s (<[k := w']> (st_keys s))).
          { destruct Eu as [Eu|Eu]; rewrite Eu in Hst; injection Hst as <- <-; eauto. }
          destruct Hst' as (w' & Hw' & -> & ->). rewrite Eb in Hresp.
          eapply inv_change; try done.
          -- right. right. right. exists CPanic. split; [done|]. left. by exists v.
          -- intros Hsm. rewrite st_keys_with, lookup_insert. transitivity (kind v); [|by eapply spelt_kind].
             by destruct Hw' as [->| ->].
          -- rewrite st_keys_with, lookup_insert. destruct Hw' as [->| ->].
             ++ right. right. exists c, v. auto.
             ++ first [exact H3|by rewrite Hkw in H3].
          -- right. right. right. exists ij, c, (TRun (PRet CPanic)). split; [apply setter_upd; by left|]. by left.
      + rewrite (Hu2 Hkd) in Hst. injection Hst as <- <-. rewrite insert_id by done.
        assert (Hdiff : ~ same).
        { intros Hsm. apply Hkd. rewrite (spelt_kind _ _ Hsm Hi Hsp). specialize (H4 Hsm).
          apply H4. eexists ij, c, _. split; [done|]. exists v, u. auto. }
        eapply inv_quiet; try done. intros _. split.
        { right. right. right. eexists. split; [done|]. right. by right. }
        split; [done|]. split; [intros ? [= <-] (? & ? & _ & _ & [?|?]); done|]. split.
        { intros x r E. rewrite Hn in E. injection E as <-. intros [?|?]; done. }
        intros q E. rewrite Hn in E. injection E as <-. rewrite Hkw. split; [done|].
        intros [= ->]. by rewrite blank_kind in Hkd.
    - cbn in Hst. injection Hst as <- <-. eapply inv_change; try done.
      + right. right. left. exists v, u. auto.
      + intros Hsm. rewrite st_keys_with, lookup_insert, blank_kind. by eapply spelt_kind.
      + rewrite st_keys_with, lookup_insert. right. right. exists c, v. auto.
      + rewrite st_keys_with, lookup_insert. right. right. left. eexists ij, c, _.
        split; [apply setter_upd; by left|]. by right.
  Qed.

  Lemma inv_begin N s ij c : inv N s -> call_at scripts ij = Some c -> N ij = None ->
    inv (upd N ij (tstart c)) s.
  Proof.
    intros Hinv Hc Hn. eapply inv_quiet; try done.
    - intros r E. congruence.
    - intros Hw. pose proof (phase_start c Hw) as Hp. unfold tstart. split; [done|].
      assert (Hh : ~ touched (TRun (command_prog (c_env c) (c_req c) (c_res c))) /\
                   ~ late c (command_prog (c_env c) (c_req c) (c_res c))).
      { destruct Hw as (kt & l & Hq). pose proof Hq as (Hcmd & Hkt & Hcar). unfold command_prog.
        rewrite Hcmd. unfold cmd_set.
        destruct (spec_key_some (c_req c) CSet k l) as (-> & _ & -> & _); try done.
        destruct l as [|a l]; cbn [head].
        { split; [by intros []|]. intros (? & ? & _ & _ & [?|?]); done. }
        unfold resolve_type. rewrite Hkt. destruct kt as [t|].
        - assert (He : early c (set_typed (c_env c) (c_req c) (c_res c) k t)) by (eapply early_typed; eauto).
          split; [by eapply early_untouched|by apply early_not_late].
        - split; [by intros []|]. intros (? & ? & _ & _ & [?|?]); done. }
      destruct Hh as [Hh1 Hh2]. split; [done|]. split; [by intros ? [= <-]|].
      split; [|congruence]. intros x r E. congruence.
    - intros Hg. by left.
  Qed.

  Lemma inv_ret N s s' ij c x r : inv N s -> call_at scripts ij = Some c -> N ij = Some x -> ret x r ->
    st_keys s' = st_keys s -> inv (upd N ij (TDone r)) s'.
  Proof.
    intros Hinv Hc Hn Hx Es. pose proof Hinv as (H1 & H2 & _).
    assert (Hr : forall r', ret x r' -> r' = r).
    { intros r' Hx'. destruct Hx as [->| ->], Hx' as [E|E]; congruence. }
    eapply inv_quiet; try done.
    - by rewrite Es.
    - intros r' E. assert (x = TDone r') as -> by congruence. f_equal. symmetry. apply Hr. by right.
    - intros Hw. assert (Ho : outcome c r).
      { pose proof (H1 ij c x) as Hp. destruct Hx as [->| ->]; [|by apply Hp].
        destruct Hp as [(? & ? & _)|[[(? & ? & ? & _ & _ & ? & _)|(err & [= ->] & ?)]|[(? & ? & _ & _ & [?|?])|(r' & [= ->] & ?)]]];
          done. }
      split; [done|]. split.
      { intros Ht. exists x. split; [done|]. destruct Hx as [->| ->]; by destruct r. }
      split; [done|]. split.
      + intros x1 r1 E1. assert (x1 = x) as -> by congruence. intros Hx1. apply Hr in Hx1 as ->. by right.
      + intros q E. assert (x = TRun q) as -> by congruence. by destruct Hx as [[= ->]|?].
    - intros Hg. destruct (H2 ij c x Hc Hg Hn) as [->|(r' & Hr' & Hgd)].
      + destruct Hx as [[= E]|?]; [|done]. exfalso.
        destruct Hg as (l & Hcmd & Hkt & Hcar). unfold command_prog in E. rewrite Hcmd in E.
        unfold cmd_get, key_ref, guarded in E.
        destruct (spec_key_some (c_req c) CGet k l) as (Hkey & _); try done. rewrite Hkey in E.
        pose proof (ordinary_ok (debug (c_env c)) k Hk) as Hb. rewrite bad_key_guard in Hb.
        apply orb_false_iff in Hb as [Hb1 Hb2]. by rewrite Hb1, Hb2 in E.
      + apply Hr in Hr' as ->. right. exists r. split; [by right|done].
  Qed.

  Definition P (vs : list view) (s : store) : Prop := inv (now_of vs) s.

  Lemma call_at_here i sc (d : list cres) c : scripts !! i = Some sc -> sc !! length d = Some c ->
    call_at scripts (i, length d) = Some c.
  Proof. intros H1 H2. unfold call_at. cbn. by rewrite H1. Qed.

  Lemma P_begin vs s i sc c d : P vs s -> scripts !! i = Some sc ->
    vs !! i = Some (d, None) -> sc !! length d = Some c -> P (<[i := (d, Some (tstart c))]> vs) s.
  Proof.
    intros HP Hsc Hv Hc. unfold P. eapply inv_ext; [intros ij; symmetry; by apply (now_of_step _ _ _ _ _ Hv)|].
    apply inv_begin; [done|by eapply call_at_here|by eapply now_of_here].
  Qed.

  Lemma P_run vs s i sc c d q q' s' : P vs s -> scripts !! i = Some sc ->
    vs !! i = Some (d, Some (TRun q)) -> sc !! length d = Some c -> quiet q ->
    within (uses (c_req c)) (may_write (c_req c)) (r_command (c_req c) = CStats) q ->
    pstep q s = Some (q', s') -> P (<[i := (d, Some (TRun q'))]> vs) s'.
  Proof.
    intros HP Hsc Hv Hc _ Hwi Hst. unfold P.
    eapply inv_ext; [intros ij; symmetry; by apply (now_of_step _ _ _ _ _ Hv)|].
    eapply inv_step; [done|by eapply call_at_here|by eapply now_of_here|done|done].
  Qed.

  Lemma P_count vs s i sc c d r s' : P vs s -> scripts !! i = Some sc ->
    vs !! i = Some (d, Some (TRun (PRet r))) -> sc !! length d = Some c -> r <> CPanic ->
    st_keys s' = st_keys s -> st_counters s' = cbump r (st_counters s) ->
    P (<[i := (d, Some (TDone r))]> vs) s'.
  Proof.
    intros HP Hsc Hv Hc _ Es _. unfold P.
    eapply inv_ext; [intros ij; symmetry; by apply (now_of_step _ _ _ _ _ Hv)|].
    eapply inv_ret; [done|by eapply call_at_here|by eapply now_of_here|by left|done].
  Qed.

  Lemma P_return vs s i sc c d x r : P vs s -> scripts !! i = Some sc ->
    vs !! i = Some (d, Some x) -> sc !! length d = Some c ->
    (x = TDone r \/ (r = CPanic /\ x = TRun (PRet CPanic))) -> P (<[i := (d ++ [r], None)]> vs) s.
  Proof.
    intros HP Hsc Hv Hc Hx. unfold P.
    eapply inv_ext; [intros ij; symmetry; by apply (now_of_return _ _ _ _ _ Hv)|].
    eapply inv_ret; [done|by eapply call_at_here|by eapply now_of_here| |done].
    destruct Hx as [->|[-> ->]]; [by right|by left].
  Qed.
End race.

Lemma now_of_returned scripts s0 P vs x a r : rinv scripts s0 P vs x -> returned x a r ->
  now_of vs a = Some (TDone r).
Proof.
  intros (Hl & Hlv & Hsh & _) (cl & Hcl & Hr). unfold now_of.
  assert (Hlt : a.1 < length x.1) by (by eapply lookup_lt_Some).
  assert (exists sc, scripts !! a.1 = Some sc) as [sc Hsc] by (apply lookup_lt_is_Some; lia).
  assert (exists v, vs !! a.1 = Some v) as [[d w] Hv] by (apply lookup_lt_is_Some; lia).
  destruct (Hsh _ _ _ _ Hcl Hsc Hv) as (Hd & _). cbn in Hd. rewrite Hv, <-Hd, Hr. done.
Qed.

Lemma now_of_done scripts s0 P vs x a c y : rinv scripts s0 P vs x -> finished scripts x ->
  call_at scripts a = Some c -> now_of vs a = Some y -> exists r, y = TDone r /\ returned x a r.
Proof.
  intros (Hl & Hlv & Hsh & _) Hf Hc Hy. unfold call_at in Hc.
  destruct (scripts !! a.1) as [sc|] eqn:Hsc; [|done]. cbn in Hc.
  destruct (Forall2_lookup_l _ _ _ _ _ Hf Hsc) as (cl & Hcl & Hlen).
  unfold now_of in Hy. destruct (vs !! a.1) as [[d w]|] eqn:Hv; [|done].
  destruct (Hsh _ _ _ _ Hcl Hsc Hv) as (Hd & _). cbn in Hd. apply lookup_lt_Some in Hc.
  destruct (d !! a.2) as [r|] eqn:Hr.
  - injection Hy as <-. exists r. split; [done|]. exists cl. by rewrite Hd.
  - apply lookup_ge_None_1 in Hr. rewrite <-Hd in Hr. lia.
Qed.

Lemma now_of_not_begun scripts s0 P vs x a : rinv scripts s0 P vs x -> not_begun x a ->
  now_of vs a = None.
Proof.
  intros (Hl & Hlv & Hsh & _) (cl & Hcl & Hb). unfold now_of.
  destruct (vs !! a.1) as [[d w]|] eqn:Hv; [|done].
  assert (Hlt : a.1 < length x.1) by (by eapply lookup_lt_Some).
  assert (exists sc, scripts !! a.1 = Some sc) as [sc Hsc] by (apply lookup_lt_is_Some; lia).
  destruct (Hsh _ _ _ _ Hcl Hsc Hv) as (Hd & _ & _ & Hw). cbn [fst snd] in Hd, Hw.
  unfold begun in Hb. rewrite Hd in Hb. destruct w as [y|].
  - destruct Hw as (c & _ & Hnow & _). rewrite Hnow in Hb.
    rewrite lookup_ge_None_2 by lia. rewrite decide_False by lia. done.
  - rewrite lookup_ge_None_2 by lia. by destruct (decide _).
Qed.

Lemma inv_more k scripts s0 T same (bf bf' : nat * nat -> nat * nat -> Prop) N s :
  (forall a b, bf' a b -> bf a b \/ ((exists r, N a = Some (TDone r)) /\ N b = None)) ->
  inv k scripts s0 T same bf N s -> inv k scripts s0 T same bf' N s.
Proof.
  intros Hb (H1 & H2 & H3 & H4 & H5 & H6). split_and!; try done.
  - intros a b Hab. destruct (Hb a b Hab) as [H|[H _]]; [by eapply H5|done].
  - destruct H6 as [A|[(w & c & x & v & r & A & B & C & D & F & G & H)|A]]; [by left| |by right; right].
    right. left. exists w, c, x, v, r. split_and!; try done. intros b c' x' Hbf Hs.
    destruct (Hb _ _ Hbf) as [H'|[_ Hnone]]; [by eapply H|].
    destruct Hs as (_ & _ & Hs). congruence.
Qed.

Lemma race_run k scripts s0 T (same : Prop) :
  ordinary k -> only_set k scripts -> envs_ok scripts -> room_for_all scripts s0 ->
  (same -> forall c kt l, issued scripts c -> asks (c_req c) CSet kt (k :: l) -> kt = Some T) ->
  forall sched x, sys_run sched (begin scripts s0) = Some x ->
  exists vs, rinv scripts s0 (P k scripts s0 T same (before scripts s0 sched)) vs x.
Proof.
  intros Hk Honly Henv Hroom Hsame. induction sched as [|i sched IH] using rev_ind; intros x Hr.
  - assert (Hnone : forall ij, now_of (map (fun _ : list call => ([], None)) scripts) ij = None).
    { intros ij. unfold now_of. change (map ?f scripts) with (f <$> scripts).
      rewrite list_lookup_fmap. destruct (scripts !! ij.1); [|done]. cbn. by destruct (decide _). }
    assert (Hnb : forall a b, ~ before scripts s0 [] a b).
    { intros a b (n & y & r & _ & Hy & Hret & _). rewrite take_nil in Hy. injection Hy as <-.
      destruct Hret as (cl & Hcl & Hd). cbn in Hcl. change (map ?f scripts) with (f <$> scripts) in Hcl.
      rewrite list_lookup_fmap in Hcl. destruct (scripts !! a.1); [|done]. injection Hcl as <-. done. }
    eapply (scripts_inv scripts s0 Hroom (P k scripts s0 T same (before scripts s0 [])));
      [intros; by eapply P_begin|intros; by eapply P_run|intros; by eapply P_count|intros; by eapply P_return| |done].
    unfold P. split_and!.
    + intros ij c y (_ & _ & H). by rewrite Hnone in H.
    + intros ij c y _ _ H. by rewrite Hnone in H.
    + by left.
    + intros _ (ij & c & q & (_ & _ & H) & _). by rewrite Hnone in H.
    + intros a b H. by destruct (Hnb a b).
    + left. split; [done|]. intros ij c y (_ & _ & H). by rewrite Hnone in H.
  - rewrite sys_run_app in Hr. destruct (sys_run sched (begin scripts s0)) as [z|] eqn:Hz; [|done].
    cbn in Hr. destruct (sys_step i z) as [z'|] eqn:Hs; [|done]. injection Hr as <-.
    destruct (IH z eq_refl) as [vs Hvs]. pose proof Hs as Hs0.
    eapply (rinv_step scripts s0 Hroom (P k scripts s0 T same (before scripts s0 sched))) in Hs as [vs' Hvs'];
      [|intros; by eapply P_begin|intros; by eapply P_run|intros; by eapply P_count|intros; by eapply P_return|done].
    exists vs'. pose proof Hvs' as (A & B & C & D & E). split_and!; try done.
    eapply inv_more; [|exact E]. intros a b (n & y & r & Hn & Hy & Ha & Hb).
    rewrite app_length in Hn. cbn in Hn. destruct (decide (n <= length sched)) as [Hle|Hgt].
    + left. rewrite take_app_le in Hy by done. by exists n, y, r.
    + right. rewrite firstn_all2 in Hy by (rewrite app_length; cbn; lia).
      rewrite sys_run_app, Hz in Hy. cbn in Hy. rewrite Hs0 in Hy. injection Hy as <-.
      split; [exists r; by eapply now_of_returned|by eapply now_of_not_begun].
Qed.

Lemma carries_unique req l l' : carries req l -> carries req l' -> l = l'.
Proof.
  intros [_ H] [_ H']. apply list_eq. intros i. specialize (H (N.of_nat i)). specialize (H' (N.of_nat i)).
  rewrite H in H'. rewrite !Nat2N.id in H'. done.
Qed.

Lemma set_of_writes k c : set_of k c -> may_write (c_req c) k.
Proof. intros (kt & l & Hq). split; [by destruct Hq as (-> & _)|]. left. by eapply asks_arg0. Qed.

Lemma c114_winner k scripts s0 sched x :
  room_for_all scripts s0 -> envs_ok scripts -> ordinary k -> only_set k scripts ->
  sys_run sched (begin scripts s0) = Some x -> finished scripts x ->
  (forall a c, call_at scripts a = Some c -> set_of k c -> ~ returned x a CPanic) ->
  (exists a c v r, call_at scripts a = Some c /\ spelt k c v /\ returned x a r /\ is_ok r = true /\
     responds (c_env c) (c_res c) v r /\ st_keys x.2 !! k = Some v /\
     forall b c' r', call_at scripts b = Some c' -> set_of k c' -> returned x b r' -> is_ok r' = true ->
       ~ before scripts s0 sched a b) \/
  (st_keys x.2 !! k = st_keys s0 !! k /\
   forall a c r, call_at scripts a = Some c -> set_of k c -> returned x a r -> is_ok r = false).
Proof.
  intros Hroom Henv Hk Honly Hrun Hfin Hnp.
  destruct (race_run k scripts s0 KTBytes False Hk Honly Henv Hroom) with (sched := sched) (x := x)
    as [vs Hvs]; [done..|].
  pose proof Hvs as (_ & _ & _ & _ & (H1 & _ & _ & _ & _ & H6)).
  destruct H6 as [(A & B)|[(w & c & y & v & r & A & B & C & D & F & G & H)|[(ij & c & q & A & _)|(ij & c & y & A & B)]]].
  - right. split; [done|]. intros a c r Hc Hw Hr. pose proof (now_of_returned _ _ _ _ _ _ _ Hvs Hr) as Hn.
    assert (Hs : setter k scripts (now_of vs) a c (TDone r)) by done.
    specialize (B _ _ _ Hs). destruct r; cbn in *; [by destruct B|done..].
  - left. destruct A as (A1 & A2 & A3).
    destruct (now_of_done _ _ _ _ _ _ _ _ Hvs Hfin A1 A3) as (r' & -> & Hret).
    destruct C as [?|[= <-]]; [done|].
    exists w, c, v, r'. split_and!; try done. intros b c' r1 Hc' Hw' Hr1 Hok Hbf.
    pose proof (now_of_returned _ _ _ _ _ _ _ Hvs Hr1) as Hn.
    assert (Hs : setter k scripts (now_of vs) b c' (TDone r1)) by done.
    apply (H _ _ _ Hbf Hs). by destruct r1.
  - exfalso. destruct A as (A1 & A2 & A3). by destruct (now_of_done _ _ _ _ _ _ _ _ Hvs Hfin A1 A3) as (? & ? & _).
  - exfalso. destruct A as (A1 & A2 & A3).
    destruct (now_of_done _ _ _ _ _ _ _ _ Hvs Hfin A1 A3) as (r & -> & Hret).
    destruct B as [?|[= ->]]; [done|]. by destruct (Hnp _ _ A1 A2).
Qed.

Lemma c114_between k scripts s0 sched x :
  room_for_all scripts s0 -> envs_ok scripts -> ordinary k -> only_set k scripts ->
  sys_run sched (begin scripts s0) = Some x ->
  may_hold k scripts s0 (st_keys x.2 !! k) /\
  forall a c l r, call_at scripts a = Some c -> asks (c_req c) CGet None (k :: l) -> returned x a r ->
    exists now, may_hold k scripts s0 now /\
      match now with
      | Some w => responds (c_env c) (c_res c) w r
      | None => r = CErr EKeyNonexistent (c_res c)
      end.
Proof.
  intros Hroom Henv Hk Honly Hrun.
  destruct (race_run k scripts s0 KTBytes False Hk Honly Henv Hroom) with (sched := sched) (x := x)
    as [vs Hvs]; [done..|].
  pose proof Hvs as (_ & _ & _ & _ & (_ & H2 & H3 & _)). split; [done|].
  intros a c l r Hc Hq Hr. pose proof (now_of_returned _ _ _ _ _ _ _ Hvs Hr) as Hn.
  destruct (H2 a c (TDone r) Hc) as [?|(r' & [?|[= <-]] & H)]; [by exists l|done|done|done|done].
Qed.

Lemma c114_outcomes k scripts s0 sched x a c kt l r :
  room_for_all scripts s0 -> envs_ok scripts -> ordinary k -> only_set k scripts ->
  sys_run sched (begin scripts s0) = Some x ->
  call_at scripts a = Some c -> asks (c_req c) CSet kt (k :: l) -> returned x a r ->
  (exists v, spelt k c v /\ responds (c_env c) (c_res c) v r) \/
  (r = CErr EArgumentRetrieval (c_res c) /\ exists t, (kt = None \/ kt = Some t) /\ value_of t l = None) \/
  r = CErr EKeyTypeDifferent (c_res c).
Proof.
  intros Hroom Henv Hk Honly Hrun Hc Hq Hr.
  destruct (race_run k scripts s0 KTBytes False Hk Honly Henv Hroom) with (sched := sched) (x := x)
    as [vs Hvs]; [done..|].
  pose proof Hvs as (_ & _ & _ & _ & (H1 & _)).
  pose proof (now_of_returned _ _ _ _ _ _ _ Hvs Hr) as Hn.
  destruct (H1 a c (TDone r)) as [H|[(-> & kt' & l' & t & Hq' & Hkt & Hv)|(-> & _)]]; [|by left| |by right; right].
  - split; [done|]. split; [by exists kt, l|done].
  - right. left. split; [done|]. exists t.
    destruct Hq as (_ & E1 & Hcar), Hq' as (_ & E2 & Hcar').
    pose proof (carries_unique _ _ _ Hcar Hcar') as [= <-]. split; [congruence|done].
Qed.

Lemma c114_same_type k scripts s0 t sched x :
  room_for_all scripts s0 -> envs_ok scripts -> ordinary k -> only_set k scripts ->
  (forall c kt l, issued scripts c -> asks (c_req c) CSet kt (k :: l) ->
     kt = Some t /\ is_Some (value_of t l)) ->
  sys_run sched (begin scripts s0) = Some x ->
  forall a c l r, call_at scripts a = Some c -> asks (c_req c) CSet (Some t) (k :: l) -> returned x a r ->
    exists v, value_of t l = Some v /\ responds (c_env c) (c_res c) v r.
Proof.
  intros Hroom Henv Hk Honly Hty Hrun a c l r Hc Hq Hr.
  destruct (race_run k scripts s0 t True Hk Honly Henv Hroom) with (sched := sched) (x := x)
    as [vs Hvs]; [intros _ c' kt' l' Hi Ha; by destruct (Hty _ _ _ Hi Ha)|done|].
  pose proof Hvs as (_ & _ & _ & _ & (H1 & _)).
  pose proof (now_of_returned _ _ _ _ _ _ _ Hvs Hr) as Hn.
  assert (Hi : issued scripts c) by (by exists a).
  destruct (H1 a c (TDone r)) as [(v & (kt' & l' & t' & Hq' & Hkt & Hv) & H)|[(-> & kt' & l' & t' & Hq' & Hkt & Hv)|(_ & H)]].
  - split; [done|]. split; [by exists (Some t), l|done].
  - destruct Hq as (_ & E1 & Hcar), Hq' as (_ & E2 & Hcar').
    pose proof (carries_unique _ _ _ Hcar Hcar') as [= <-]. exists v. split; [|done].
    destruct Hkt as [->| ->]; [congruence|]. assert (t' = t) as -> by congruence. done.
  - destruct (Hty _ _ _ Hi Hq') as [-> [v Hv']]. destruct Hkt as [?|[= <-]]; [done|]. congruence.
  - by destruct H.
Qed.

(** With the map's locks. *)
Lemma c114_locked sh k scripts s0 lsched x :
  room_for_all scripts s0 -> envs_ok scripts -> ordinary k -> only_set k scripts ->
  lsys_run sh lsched (lbegin scripts s0) = Some x -> unlocked sh x k ->
  may_hold k scripts s0 (st_keys x.2 !! k) /\
  (Forall2 (fun sc cl => length (lc_done cl) = length sc) scripts x.1 ->
   (forall a c, call_at scripts a = Some c -> set_of k c -> ~ lreturned x a CPanic) ->
   (exists a c v r, call_at scripts a = Some c /\ spelt k c v /\ lreturned x a r /\ is_ok r = true /\
      responds (c_env c) (c_res c) v r /\ st_keys x.2 !! k = Some v /\
      forall b c' r', call_at scripts b = Some c' -> set_of k c' -> lreturned x b r' -> is_ok r' = true ->
        ~ lbefore sh scripts s0 lsched a b) \/
   (st_keys x.2 !! k = st_keys s0 !! k /\
    forall a c r, call_at scripts a = Some c -> set_of k c -> lreturned x a r -> is_ok r = false)).
Proof.
  intros Hroom Henv Hk Honly Hr Hu.
  destruct (lock_transfer _ _ _ _ _ Hr) as (sched & y & f & Hy & Hi & _ & _ & _ & Hb).
  rewrite (sinv_key _ _ _ _ Hi Hu). split; [by eapply c114_between|].
  intros Hfin Hnp. destruct (c114_winner k scripts s0 sched y) as
    [(a & c & v & r & H1 & H2 & H3 & H4 & H5 & H6 & H7)|[H1 H2]]; try done.
  - pose proof (sinv_clients _ _ _ Hi) as Hc. unfold finished. clear -Hfin Hc.
    revert Hfin. generalize scripts. induction Hc as [|cl cl' cs cs' (H & _ & _) Hc IH]; intros scripts' Hf;
      inversion Hf; subst; constructor; [by rewrite <-H|by apply IH].
  - intros a c Hc Hs Hp%(sinv_returned _ _ _ _ _ Hi). by eapply Hnp.
  - left. exists a, c, v, r. split_and!; try done; [by apply (sinv_returned _ _ _ _ _ Hi)|].
    intros b c' r' Hc' Hs' Hr'%(sinv_returned _ _ _ _ _ Hi) Hok Hbf. by eapply H7; eauto.
  - right. split; [done|]. intros a c r Hc Hs Hr'%(sinv_returned _ _ _ _ _ Hi). by eapply H2.
Qed.
