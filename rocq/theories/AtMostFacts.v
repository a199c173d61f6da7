(** Lemmas behind C131: a call takes effect at most once. *)
From Verif Require Import Locks LockSpec LockFacts LockScripts LockScriptSpec LockScriptFacts.
From Verif Require Import Bytes BytesFacts Utf8 Float64 Value CommandId Request RequestSpec RequestFacts Response RespContext WireSpec
  EngineSpec Metrics Prog ProgFacts Commands CommandFacts HistorySpec EngineFacts EngineProps Concurrent ConcSpec ConcFacts Scripts LinSpec
  LinFacts KeyLinSpec KeyLin KeyLinFacts IsoSpec IsoFacts ScriptInv MomentSpec MomentFacts
  Client ClientSpec ClientFacts ClientProps MemTasks MemTaskSpec MemTaskFacts MemRaceSpec MemRaceFacts MemForwardSpec MemForward
  SeenSpec SeenFacts WroteSpec WroteFacts LedgerSpec LedgerFacts SpareSpec SpareFacts LastingSpec LastingFacts MildSpec MildFacts.
From Verif Require MemLin MemFair.
From stdpp Require Import gmap list.
From Coq Require Import NArith ZArith Lia.
From Coq Require Import ZifyBool ZifyNat ZifyN.

(** From the time [t] on, the program makes no changes that do not satisfy [H], but for one of each of the keys [ks], in
    this order, and none at all when there is no key left; what it returns and the keys that are then left satisfy [Q]. *)
Fixpoint budget (M : bytes -> nat -> option value -> Prop) (H : bytes -> nat -> option value -> option value -> Prop)
  (Q : list bytes -> cres -> Prop) (ks : list bytes) (t : nat) (p : prog) : Prop :=
  match p with
  | PRet r => Q ks r
  | PContains k q => forall n o, t <= n -> M k n o -> budget M H Q ks n (q (match o with Some _ => true | None => false end))
  | PGet k q => forall n o, t <= n -> M k n o -> budget M H Q ks n (q o)
  | PInsert k v q => exists ks', ks = k :: ks' /\ forall n, t <= n -> budget M H Q ks' n q
  | PRemove k q => forall o,
      (ks <> [] /\ (forall n, t <= n -> H k n o None) /\ forall n, t <= n -> budget M H Q ks n (q o)) \/
      exists ks', ks = k :: ks' /\ forall n, t <= n -> budget M H Q ks' n (q o)
  | PKoi k d u q => (forall m n o, t <= m -> m <= n -> M k m None -> H k n o (Some d)) /\
      exists ks', ks = k :: ks' /\ forall v n, t <= n -> budget M H Q ks' n (q (u v).2)
  | PKoiIns k d u q => (forall n o, t <= n -> H k n o (Some d)) /\
      exists ks', ks = k :: ks' /\ forall v n, t <= n -> budget M H Q ks' n (q (u v).2)
  | PCounter _ q => forall v, budget M H Q ks t (q v)
  | PIncr _ _ q => budget M H Q ks t q
  end.

Lemma budget_pbind M H (Q : list bytes -> cres -> Prop) p f : (forall ks t r, Q ks r -> budget M H Q ks t (f r)) ->
  forall ks t, budget M H Q ks t p -> budget M H Q ks t (pbind p f).
Proof.
  intros Hf. induction p as [r|k c IH|k c IH|k v c IH|k c IH|k d u c IH|k d u c IH|m c IH|d m c IH];
    intros ks t Hp; cbn in *; eauto.
  - destruct Hp as (ks' & -> & Hp). exists ks'. eauto.
  - intros o. destruct (Hp o) as [(H1 & H2 & H3)|(ks' & -> & H3)]; [left; eauto|right; exists ks'; eauto].
  - destruct Hp as (H1 & ks' & -> & H3). split; [done|]. exists ks'. eauto.
  - destruct Hp as (H1 & ks' & -> & H3). split; [done|]. exists ks'. eauto.
Qed.

Lemma budget_dispatch M H Q ks t e req res : budget M H Q ks t (command_prog e req res) -> budget M H Q ks t (dispatch_prog e req res).
Proof. intros Hp. unfold dispatch_prog. apply budget_pbind; [|done]. by intros ? ? [] ?. Qed.

Section commands.
  Context (sh : shards) (scripts : list (list call)) (s0 : store) (sched : list (nat * list value)).
  Context (b : nat * nat) (c : call).
  Notation M := (noticed sh scripts s0 sched b).
  Notation C := (replaced sh scripts s0 sched b).
  Notation H := (mild sh scripts s0 sched b c).
  (** If the call is one that changes data, and succeeds, no key is left. *)
  Definition spent (ks : list bytes) (r : cres) : Prop :=
    match r_command (c_req c) with
    | CSet | CDelete | CRename | CAppend | CIncrement | CDecrement | CIncrementBy | CDecrementBy =>
      match r with COk _ => ks = [] | _ => True end
    | _ => True
    end.

  Lemma spent_nil r : spent [] r.
  Proof. unfold spent. destruct (r_command (c_req c)); by destruct r. Qed.

  Lemma spent_err ks e res : spent ks (CErr e res).
  Proof. unfold spent. by destruct (r_command (c_req c)). Qed.

  Lemma spent_panic ks : spent ks CPanic.
  Proof. unfold spent. by destruct (r_command (c_req c)). Qed.

  Hint Resolve spent_nil spent_err spent_panic : core.

  (** The keys that the call may change, in the order in which it does. *)
  Definition aims : list bytes :=
    match arg (c_req c) 0 with
    | Some k => k :: (if decide (r_command (c_req c) = CRename) then match arg (c_req c) 1 with Some d => [d] | None => [] end else [])
    | None => []
    end.

  Ltac leaf := solve [done|cbn; done|cbn; auto|intros; cbn; auto].

  Lemma budget_koi t0 k t u : arg (c_req c) 0 = Some k -> begins_as (c_req c) t ->
    r_command (c_req c) = CSet \/ r_command (c_req c) = CAppend \/ r_command (c_req c) = CIncrement \/
    r_command (c_req c) = CDecrement \/ r_command (c_req c) = CIncrementBy \/ r_command (c_req c) = CDecrementBy ->
    budget M H spent [k] t0 (key_or_insert_with (c_env c) k (blank t) u).
  Proof.
    intros Hk Ht Hcmd. unfold key_or_insert_with, guarded. destruct (starts_with k reserved_prefix); [leaf|].
    destruct (debug (c_env c) && _); [leaf|]. cbn. split; [|by exists []].
    intros m n o _ Hmn HM. right.
    destruct Hcmd as [E|[E|[E|[E|[E|E]]]]]; rewrite E; (split; [leaf|]; right; by exists t, m).
  Qed.

  Lemma budget_set t0 k t : arg (c_req c) 0 = Some k -> begins_as (c_req c) t -> r_command (c_req c) = CSet ->
    budget M H spent [k] t0 (Commands.set_typed (c_env c) (c_req c) (c_res c) k t).
  Proof.
    intros Hk Ht E.
    assert (Hw : forall A (as_ : value -> option A) new kept out,
      budget M H spent [k] t0 (set_with (c_env c) (c_res c) k (blank t) as_ new kept out)).
    { intros A as_ new kept out. cbn. intros o. left. split_and!; [done| |].
      - intros n _. right. rewrite E. split; [leaf|]. by left.
      - intros n _. apply budget_koi; [done|done|tauto]. }
    unfold Commands.set_typed. destruct t; match goal with |- budget _ _ _ _ _ (match ?x with Some _ => _ | None => _ end) => destruct x end;
      try leaf; apply Hw.
  Qed.

  Lemma budget_command t0 : budget M H spent aims t0 (command_prog (c_env c) (c_req c) (c_res c)).
  Proof.
    assert (Hkey : forall k, key (c_req c) = Some k -> arg (c_req c) 0 = Some k).
    { intros k. unfold key. destruct (r_command (c_req c)); cbn; try leaf. }
    assert (Href : forall N t k q, (forall n o, budget M H spent N n (q o)) -> budget M H spent N t (key_ref (c_env c) k q)).
    { intros N t k q Hq. unfold key_ref, guarded. destruct (starts_with k reserved_prefix); [leaf|].
      destruct (debug (c_env c) && _); [leaf|]. cbn [budget]. intros n o _ _. apply Hq. }
    assert (Hint : forall k u, arg (c_req c) 0 = Some k -> begins_as (c_req c) KTInteger ->
      r_command (c_req c) = CIncrement \/ r_command (c_req c) = CDecrement \/ r_command (c_req c) = CIncrementBy \/
      r_command (c_req c) = CDecrementBy -> budget M H spent [k] t0 (key_or_insert_with (c_env c) k value_integer u)).
    { intros k u Hk Hb Hc. apply (budget_koi _ _ KTInteger); [done|done|tauto]. }
    unfold begins_as in Hint. unfold aims.
    unfold command_prog in *. destruct (r_command (c_req c)) eqn:E; (rewrite decide_False by done) || (rewrite decide_True by done).
    all: try (assert (Hany : forall ks r, spent ks r) by (intros; unfold spent; by rewrite E)).
    - unfold cmd_increment. destruct (key (c_req c)) as [k|] eqn:Ek; [|leaf]. rewrite (Hkey _ eq_refl).
      destruct (wants_float (c_req c)); apply Hint; auto.
    - unfold cmd_decrement. destruct (key (c_req c)) as [k|] eqn:Ek; [|leaf]. rewrite (Hkey _ eq_refl).
      destruct (wants_float (c_req c)); apply Hint; auto.
    - unfold cmd_increment_by. destruct (key (c_req c)) as [k|] eqn:Ek; [|leaf]. rewrite (Hkey _ eq_refl).
      destruct (typed_arg convert_i64 (c_req c) 1); [apply Hint; auto|].
      destruct (typed_arg convert_f64 (c_req c) 1); [apply Hint; auto|leaf].
    - unfold cmd_decrement_by. destruct (key (c_req c)) as [k|] eqn:Ek; [|leaf]. rewrite (Hkey _ eq_refl).
      destruct (typed_arg convert_i64 (c_req c) 1).
      { destruct (i64_checked _ _); [apply Hint; auto|leaf]. }
      destruct (typed_arg convert_f64 (c_req c) 1); [apply Hint; auto|leaf].
    - unfold cmd_set. destruct (key (c_req c)) as [k|] eqn:Ek; [|leaf]. rewrite (Hkey _ eq_refl). destruct (arg (c_req c) 1) eqn:Ea; [|leaf].
      unfold resolve_type. destruct (r_key_type (c_req c)) as [t|] eqn:Et.
      + apply budget_set; [by apply Hkey| |leaf]. unfold begins_as. rewrite E, Et. by right.
      + cbn [budget]. intros n o _ _. apply budget_set; [by apply Hkey| |leaf]. unfold begins_as. rewrite E, Et. by left.
    - unfold cmd_get. destruct (key (c_req c)) as [k|]; [|leaf]. apply Href. intros n [v|]; [|leaf].
      destruct (r_key_type (c_req c)); [|leaf]. case_decide; leaf.
    - unfold cmd_delete. destruct (r_key_type (c_req c)); [leaf|]. destruct (key (c_req c)) as [k|] eqn:Ek; [|leaf]. rewrite (Hkey _ eq_refl).
      cbn. intros o. right. exists []. split; [leaf|]. destruct o; leaf.
    - unfold cmd_exists. destruct (r_key_type (c_req c)); [leaf|]. destruct (args_all (c_req c)) as [a|]; [|leaf].
      clear Href Hint. revert t0. induction (arguments_collect a) as [|k l IH]; intros t0; [leaf|]. cbn. intros n [v|] _ _; leaf.
    - unfold cmd_is. destruct (r_key_type (c_req c)) as [kt|]; [|leaf]. destruct (args_all (c_req c)) as [a|]; [|leaf].
      clear Href Hint. revert t0. induction (arguments_collect a) as [|k l IH]; intros t0; [leaf|]. cbn. intros n o _ _. destruct (match o with Some v => _ | None => _ end); leaf.
    - unfold cmd_rename. destruct (r_key_type (c_req c)); [leaf|]. destruct (arg (c_req c) 0) as [k|] eqn:Ek; [|leaf].
      destruct (arg (c_req c) 1) as [d|] eqn:Ed; [|leaf]. cbn. intros n1 [v1|] Hn1 _; [|leaf]. cbn. intros n2 [v2|] Hn2 HM2; [leaf|]. cbn.
      intros o. right. exists [d]. split; [leaf|]. intros n _. destruct o as [v|]; [|leaf]. cbn. by exists [].
    - unfold cmd_type. destruct (key (c_req c)) as [k|]; [|leaf]. destruct (r_key_type (c_req c)); [leaf|]. cbn. intros n [v|]; leaf.
    - unfold cmd_append. destruct (arg (c_req c) 0) as [k|] eqn:Ek; [|leaf]. destruct (args_from (c_req c) 1) as [a|] eqn:Ea; [|leaf].
      assert (Hcont : forall n t, r_key_type (c_req c) = None \/ r_key_type (c_req c) = Some t ->
        budget M H spent [k] n (match t with KTBytes => append_bytes (c_env c) a (c_res c) k
        | KTList => append_list (c_env c) a (c_res c) k | KTString => append_string (c_env c) a (c_res c) k
        | _ => fail (c_res c) EKeyTypeDifferent end)).
      { intros n t Ht. destruct t; try leaf.
        - apply (budget_koi _ _ KTBytes); [done|unfold begins_as; by rewrite E|tauto].
        - apply (budget_koi _ _ KTString); [done|unfold begins_as; by rewrite E|tauto].
        - apply (budget_koi _ _ KTList); [done|unfold begins_as; by rewrite E|tauto]. }
      unfold resolve_type. destruct (r_key_type (c_req c)) as [t|] eqn:Et; [apply (Hcont t0 t); by right|].
      cbn [budget]. intros n o _ _. apply (Hcont n (match o with Some v => kind v | None => KTBytes end)). by left.
    - unfold cmd_length, resolve_type. destruct (key (c_req c)) as [k|]; [|leaf].
      assert (Hr : forall ks n t, budget M H spent ks n (match t with
        | KTBytes => read_variant (c_env c) (c_res c) k as_bytes (fun bs => COk (write_int (c_res c) (Z.of_N (lenN bs))))
        | KTList => read_variant (c_env c) (c_res c) k as_list (fun l => COk (write_int (c_res c) (Z.of_N (lenN l))))
        | KTMap => read_variant (c_env c) (c_res c) k as_map (fun m => COk (write_int (c_res c) (Z.of_N (N.of_nat (size m)))))
        | KTSet => read_variant (c_env c) (c_res c) k as_set (fun s => COk (write_int (c_res c) (Z.of_N (N.of_nat (size s)))))
        | KTString => read_variant (c_env c) (c_res c) k as_string (fun s => COk (write_int (c_res c) (Z.of_N (char_count s))))
        | _ => fail (c_res c) EKeyTypeInvalid end)).
      { intros ks n []; try leaf; unfold read_variant; apply Href; intros n' [v|]; try leaf; destruct v; leaf. }
      destruct (r_key_type (c_req c)) as [t|]; [by apply (Hr _ t0 t)|]. cbn [budget]. intros n o _ _.
      by apply (Hr _ n (match o with Some v => kind v | None => KTBytes end)).
    - unfold cmd_keys, resolve_type. destruct (key (c_req c)) as [k|]; [|leaf].
      assert (Hr : forall ks n t, budget M H spent ks n (match t with
        | KTMap => read_variant (c_env c) (c_res c) k as_map (fun m =>
            cres_of (write_list (c_env c) (c_res c) (map fst (map_iter (c_env c) m))))
        | _ => fail (c_res c) EKeyTypeInvalid end)).
      { intros ks n []; try leaf. unfold read_variant. apply Href. intros n' [v|]; try leaf. destruct v; leaf. }
      destruct (r_key_type (c_req c)) as [t|]; [by apply (Hr _ t0 t)|]. cbn [budget]. intros n o _ _.
      by apply (Hr _ n (match o with Some v => kind v | None => KTMap end)).
    - unfold cmd_echo. repeat (match goal with |- budget _ _ _ _ _ (match ?x with _ => _ end) => destruct x end); leaf.
    - unfold cmd_stats. destruct (r_key_type (c_req c)); [leaf|]. generalize (∅ : gmap bytes bytes) as m.
      induction stats_counters as [|x l IH]; intros m; [leaf|]. cbn. intros [n|]; [|apply IH].
      destruct (_ <? _)%Z; apply IH.
  Qed.

  (** All changes up to the time [t] are mild, but for those of the list. *)
  Definition all_but (L : list (bytes * (nat * nat))) (t : nat) : Prop :=
    forall l j j' p p', C l j j' p p' -> j' <= t -> H l j p p' \/ (l, (j, j')) ∈ L.

  Lemma all_but_mild L t n n' k o o' : C k n n' o o' -> H k n o o' -> only sh scripts s0 sched b t k n n' ->
    all_but L t -> all_but L n'.
  Proof.
    intros Hch Hh Honly Hso l j j' p p' Hre Hj.
    destruct (Honly _ _ _ _ _ Hre) as [Hle|[Hlt|(-> & -> & [->| ->])]]; [by eapply Hso|lia| |left; by left]. left.
    assert (p = o) as -> by (eapply noticed_once; [apply Hch|apply Hre]).
    assert (p' = o') as -> by (eapply noticed_once; [apply Hch|apply Hre]). done.
  Qed.

  Lemma all_but_more L t n n' k : only sh scripts s0 sched b t k n n' -> all_but L t -> all_but ((k, (n, n')) :: L) n'.
  Proof.
    intros Honly Hso l j j' p p' Hre Hj.
    destruct (Honly _ _ _ _ _ Hre) as [Hle|[Hlt|(-> & -> & [->| ->])]]; [|lia|right; by left|left; by left].
    destruct (Hso _ _ _ _ _ Hre Hle); [by left|right; by right].
  Qed.

  Lemma all_but_still L t n k : all_but L t -> only sh scripts s0 sched b t k n n -> all_but L n.
  Proof.
    intros Hso Honly l j j' p p' Hre Hj. destruct (Honly _ _ _ _ _ Hre) as [Hle|[Hlt|(-> & -> & _)]]; [by eapply Hso|lia|].
    destruct Hre; lia.
  Qed.

  (** The changes of the list are in order, the newest first, and end by the time [t]. *)
  Fixpoint in_turn (L : list (bytes * (nat * nat))) (t : nat) : Prop :=
    match L with
    | [] => True
    | (k, (n, n')) :: L => n' <= t /\ in_turn L n
    end.

  Lemma in_turn_later L t n : in_turn L t -> t <= n -> in_turn L n.
  Proof. destruct L as [|[k [m m']] L]; [done|]. cbn. intros [H1 H2] Hle. split; [lia|done]. Qed.

  (** No change ends later than the newest of the list, when the call can make no more of them. *)
  Definition ended (L : list (bytes * (nat * nat))) (ks : list bytes) (t : nat) : Prop :=
    ks = [] -> forall a, head L = Some a -> forall l j j' p p', C l j j' p p' -> j' <= t -> j' <= a.2.2.

  Lemma ended_still L ks t n k : only sh scripts s0 sched b t k n n -> ended L ks t -> ended L ks n.
  Proof.
    intros Honly Hl Hks a Ha l j j' p p' Hre Hj. destruct (Honly _ _ _ _ _ Hre) as [Hle|[Hlt|(-> & -> & _)]]; [by eapply Hl|lia|].
    destruct Hre; lia.
  Qed.

  Definition made (L : list (bytes * (nat * nat))) : Prop := forall k n n', (k, (n, n')) ∈ L -> exists o o', C k n n' o o'.

  Definition within (t : nat) (p : prog) : Prop :=
    exists L ks, all_but L t /\ (reverse L.*1 ++ ks = aims /\ made L) /\ in_turn L t /\ budget M H spent ks t p /\ ended L ks t.

  Lemma within_more L ks k t n n' o o' p : C k n n' o o' -> all_but L t -> reverse L.*1 ++ k :: ks = aims /\ made L -> in_turn L t -> t <= n -> n <= n' ->
    only sh scripts s0 sched b t k n n' -> (forall m, t <= m -> budget M H spent ks m p) -> within n' p.
  Proof.
    intros Hch Hs [HL Hmd] Hi H1 H2 Ho Hp. exists ((k, (n, n')) :: L), ks. split; [by eapply all_but_more|]. split; [|split; [|split; [apply Hp; lia|]]].
    - split; [by rewrite fmap_cons, reverse_cons, <-app_assoc|]. intros l m m' Hin.
      apply elem_of_cons in Hin as [Hin|Hin]; [simplify_eq; eauto|by apply Hmd].
    - cbn. split; [done|]. by eapply in_turn_later.
    - by intros _ a [= <-].
  Qed.

  Lemma at_most x r : room_for_all scripts s0 -> lsys_run sh sched (lbegin scripts s0) = Some x ->
    call_at scripts b = Some c -> lreturned x b r ->
    exists L ks t, (reverse L.*1 ++ ks = aims /\ made L /\ spent ks r) /\ in_turn L t /\
      (forall k n n' o o', C k n n' o o' -> H k n o o' \/ (k, (n, n')) ∈ L) /\
      (ks = [] -> forall a, head L = Some a -> forall l j j' p p', C l j j' p p' -> j' <= a.2.2).
  Proof.
    intros Hroom Hx Hc (cl & Hcl & Hr).
    assert (Hlt' : forall k m m' p p', C k m m' p p' -> m <= m') by (intros ? ? ? ? ? []; lia).
    assert (Hf : followed sh scripts s0 sched b within (length sched) x).
    { eapply (followed_run sh scripts s0 sched b c within Hroom Hc); [..|done|by rewrite firstn_all].
      - intros t l q m p (L & ks & Hs & HL & Hi & Hw & Hh) Hm HM Ho. exists L, ks.
        split; [by eapply all_but_still|]. split; [exact HL|]. split_and!; [by eapply in_turn_later|by apply Hw|by eapply ended_still].
      - intros t l q m p (L & ks & Hs & HL & Hi & Hw & Hh) Hm HM Ho. exists L, ks.
        split; [by eapply all_but_still|]. split; [exact HL|]. split_and!; [by eapply in_turn_later|by apply Hw|by eapply ended_still].
      - intros t l v q m m' p (L & ks & Hs & HL & Hi & Hw & Hh) Hm HM Ho. destruct Hw as (ks' & -> & Hw).
        eapply (within_more L ks' l t m m'); eauto.
      - intros t l q m m' p (L & ks & Hs & HL & Hi & Hw & Hh) Hm HM Ho. pose proof (Hlt' _ _ _ _ _ HM) as Hle.
        destruct (Hw p) as [(H0 & H2 & H3)|(ks' & -> & H3)].
        + exists L, ks. split; [eapply (all_but_mild L t m m' l); try done; by apply H2|]. split; [exact HL|]. split_and!; [eapply in_turn_later; [done|lia]|apply H3; lia|].
          by intros ->.
        + eapply (within_more L ks' l t m m'); eauto.
      - intros t l d u q m m' v (L & ks & Hs & HL & Hi & Hw & Hh) Hm HM Ho. destruct Hw as (_ & ks' & -> & H2).
        eapply (within_more L ks' l t m m'); eauto.
      - intros t l d u q m m' (L & ks & Hs & HL & Hi & Hw & Hh) Hm HM Ho. destruct Hw as (H1 & ks' & -> & H3).
        pose proof (Hlt' _ _ _ _ _ HM) as Hle. pose proof HM as (_ & HM' & _).
        exists L, (l :: ks'). split; [eapply (all_but_mild L t m m' l); try done; by left|]. split; [exact HL|]. split; [eapply in_turn_later; [done|lia]|]. split; [|done].
        cbn. split.
        + intros i p Hip. apply (H1 m); [done|lia|done].
        + exists ks'. split; [done|]. intros v i Hiv. apply H3. lia.
      - intros t l d u q m m' p (L & ks & Hs & HL & Hi & Hw & Hh) Hm HM Ho. destruct Hw as (H1 & ks' & -> & H3).
        pose proof (Hlt' _ _ _ _ _ HM) as Hle.
        exists L, (l :: ks'). split; [eapply (all_but_mild L t m m' l); try done; by apply H1|]. split; [exact HL|]. split; [eapply in_turn_later; [done|lia]|]. split; [|done].
        cbn. split.
        + intros i j p' Hij Hj _. apply H1. lia.
        + exists ks'. split; [done|]. intros v i Hiv. apply H3. lia.
      - intros t m q v (L & ks & Hs & HL & Hi & Hw & Hh). exists L, ks. split; [done|]. split; [done|]. split; [done|]. split; [apply Hw|done].
      - intros t d m q (L & ks & Hs & HL & Hi & Hw & Hh). by exists L, ks.
      - intros t Hfr. exists [], aims. split; [|split; [|split; [done|split; [|done]]]]; [|split; [done|by intros ? ? ? ?%elem_of_nil]|].
        2: apply budget_dispatch, budget_command.
        intros l j j' p p' Hcc Hle. specialize (Hfr _ _ _ _ _ Hcc). lia. }
    destruct (Hf cl Hcl) as (_ & _ & Hd). destruct (Hd _ Hr) as (t & _ & (L & ks & Hs & [HL Hmd] & Hi & Hsp & Hh) & Hq).
    assert (Hby : forall k n n' o o', C k n n' o o' -> n' <= t).
    { intros k n n' o o' Hre. pose proof Hre as (Hm & _ & (Hm' & _) & Hw). destruct (le_lt_dec n' t) as [|Hlt]; [done|]. exfalso.
      destruct (MemLin.lsys_run_take _ _ _ _ _ (n' - 1) Hx) as [z Hz]. apply (Hq (n' - 1) z k); [lia|lia|done|].
      apply (Hw (n' - 1)); [lia|lia|done]. }
    exists L, ks, t. split; [by split_and!|]. split; [done|]. split; [intros; by eapply Hs, Hby|].
    intros Hks a Ha l j j' p p' Hre. by eapply Hh, Hby.
  Qed.
End commands.

(** What is found for a call other than a rename. *)
Lemma at_most_one sh scripts s0 sched x b c r :
  room_for_all scripts s0 -> lsys_run sh sched (lbegin scripts s0) = Some x -> call_at scripts b = Some c ->
  lreturned x b r -> r_command (c_req c) <> CRename ->
  (forall k n n' o o', replaced sh scripts s0 sched b k n n' o o' -> mild sh scripts s0 sched b c k n o o') \/
  exists k n n', forall l m m' p p', replaced sh scripts s0 sched b l m m' p p' ->
    m' <= n' /\ (mild sh scripts s0 sched b c l m p p' \/ (l = k /\ m = n /\ m' = n')).
Proof.
  intros Hroom Hx Hc Hr Hren. destruct (at_most _ _ _ _ _ _ _ _ Hroom Hx Hc Hr) as (L & ks & t & [HL _] & _ & Hall & Hl).
  assert (Haims : length (aims c) <= 1).
  { unfold aims. rewrite decide_False by done. destruct (arg (c_req c) 0); cbn; lia. }
  rewrite <-HL, app_length, reverse_length, fmap_length in Haims.
  destruct L as [|[k [n n']] [|? ?]]; cbn in Haims; [| |lia].
  - left. intros k n n' o o' Hre. destruct (Hall _ _ _ _ _ Hre) as [|Hi]; [done|]. by apply elem_of_nil in Hi.
  - right. exists k, n, n'. intros l m m' p p' Hre. split.
    + eapply (Hl ltac:(by destruct ks; [|cbn in Haims; lia]) (k, (n, n'))); done.
    + destruct (Hall _ _ _ _ _ Hre) as [|Hi]; [by left|right]. apply elem_of_list_singleton in Hi. by simplify_eq.
Qed.

Lemma c131_once sh scripts s0 sched x b c r k l n n' m m' o o' p p' :
  room_for_all scripts s0 -> lsys_run sh sched (lbegin scripts s0) = Some x -> call_at scripts b = Some c ->
  lreturned x b r -> r_command (c_req c) <> CRename ->
  replaced sh scripts s0 sched b k n n' o o' -> replaced sh scripts s0 sched b l m m' p p' ->
  mild sh scripts s0 sched b c k n o o' \/ mild sh scripts s0 sched b c l m p p' \/
  (k = l /\ n = m /\ n' = m' /\ o = p /\ o' = p').
Proof.
  intros Hroom Hx Hc Hr Hren H1 H2. destruct (at_most_one _ _ _ _ _ _ _ _ Hroom Hx Hc Hr Hren) as [Hall|(k1 & n1 & n1' & Hall)].
  { left. by eapply Hall. }
  destruct (Hall _ _ _ _ _ H1) as [_ [|(-> & -> & ->)]]; [by left|].
  destruct (Hall _ _ _ _ _ H2) as [_ [|(-> & -> & ->)]]; [by right; left|].
  right. right. split_and!; [done|done|done| |].
  - eapply noticed_once; [apply H2|apply H1].
  - eapply noticed_once; [apply H2|apply H1].
Qed.

(** ** What follows *)

Lemma c131_rename sh scripts s0 sched x b c r k d :
  room_for_all scripts s0 -> lsys_run sh sched (lbegin scripts s0) = Some x -> call_at scripts b = Some c ->
  lreturned x b r -> r_command (c_req c) = CRename -> arg (c_req c) 0 = Some k -> arg (c_req c) 1 = Some d ->
  exists n1 n1' n2 n2', n1' <= n2 /\ forall l n n' o o', replaced sh scripts s0 sched b l n n' o o' ->
    o' = o \/ (l = k /\ n = n1 /\ n' = n1') \/ (l = d /\ n = n2 /\ n' = n2').
Proof.
  intros Hroom Hx Hc Hr E Hk Hd. destruct (at_most _ _ _ _ _ _ _ _ Hroom Hx Hc Hr) as (L & ks & t & [HL _] & Hi & Hall & _).
  unfold aims in HL. rewrite decide_True, Hk, Hd in HL by done.
  assert (Hall' : forall l n n' o o', replaced sh scripts s0 sched b l n n' o o' -> o' = o \/ (l, (n, n')) ∈ L).
  { intros l n n' o o' Hre. destruct (Hall _ _ _ _ _ Hre) as [[|Hm]|]; [by left| |by right]. by rewrite E in Hm. }
  clear Hall. destruct L as [|[k1 [n1 n1']] [|[k2 [n2 n2']] [|a L]]].
  - exists 0, 0, 0, 0. split; [done|]. intros l n n' o o' Hre. destruct (Hall' _ _ _ _ _ Hre) as [|Hin]; [by left|]. by apply elem_of_nil in Hin.
  - cbn in HL. injection HL as -> _. exists n1, n1', n1', n1'. split; [done|]. intros l n n' o o' Hre.
    destruct (Hall' _ _ _ _ _ Hre) as [|Hin]; [by left|]. apply elem_of_list_singleton in Hin. right. left. by simplify_eq.
  - cbn in HL. injection HL as -> -> _. cbn in Hi. exists n2, n2', n1, n1'. split; [tauto|]. intros l n n' o o' Hre.
    destruct (Hall' _ _ _ _ _ Hre) as [|Hin]; [by left|]. right.
    apply elem_of_cons in Hin as [Hin|Hin]; [right; by simplify_eq|]. apply elem_of_list_singleton in Hin. left. by simplify_eq.
  - exfalso. apply (f_equal length) in HL. rewrite app_length, reverse_length, fmap_length in HL. cbn in HL. lia.
Qed.

Lemma c131_adds sh scripts s0 sched x b c r k l n n' m m' o o' p p' :
  room_for_all scripts s0 -> lsys_run sh sched (lbegin scripts s0) = Some x -> call_at scripts b = Some c ->
  lreturned x b r -> r_command (c_req c) <> CRename -> r_command (c_req c) <> CSet ->
  (forall j i, adds c -> arg (c_req c) 0 = Some j -> ~ noticed sh scripts s0 sched b j i None) ->
  replaced sh scripts s0 sched b k n n' o o' -> o' <> o -> replaced sh scripts s0 sched b l m m' p p' -> p' <> p ->
  k = l /\ n = m /\ n' = m' /\ o = p /\ o' = p'.
Proof.
  intros Hroom Hx Hc Hr Hren Hset Hno H1 Ho H2 Hp.
  assert (Hnm : forall j i q q', mild sh scripts s0 sched b c j i q q' -> q' = q).
  { intros j i q q' [|Hm]; [done|]. exfalso. unfold adds in Hno.
    destruct (r_command (c_req c)); try done; destruct Hm as [Hj [[Hm _]|(t & i' & Hi & Hm & _)]]; try done; by eapply (Hno j i'). }
  destruct (c131_once _ _ _ _ _ _ _ _ _ _ _ _ _ _ _ _ _ _ Hroom Hx Hc Hr Hren H1 H2) as [Hm|[Hm|Hm]]; [..|done];
    apply Hnm in Hm; congruence.
Qed.

Lemma c131_last sh scripts s0 sched x b c r k l n n' m m' o o' p p' :
  room_for_all scripts s0 -> lsys_run sh sched (lbegin scripts s0) = Some x -> call_at scripts b = Some c ->
  lreturned x b r -> r_command (c_req c) <> CRename ->
  replaced sh scripts s0 sched b k n n' o o' -> ~ mild sh scripts s0 sched b c k n o o' ->
  replaced sh scripts s0 sched b l m m' p p' -> m' <= n'.
Proof.
  intros Hroom Hx Hc Hr Hren H1 Hn H2. destruct (at_most_one _ _ _ _ _ _ _ _ Hroom Hx Hc Hr Hren) as [Hall|(k1 & n1 & n1' & Hall)].
  { exfalso. by eapply Hn, Hall. }
  destruct (Hall _ _ _ _ _ H1) as [_ [|(-> & -> & ->)]]; [done|]. by destruct (Hall _ _ _ _ _ H2).
Qed.

Lemma c131_did sh scripts s0 sched x b c k out :
  room_for_all scripts s0 -> lsys_run sh sched (lbegin scripts s0) = Some x -> call_at scripts b = Some c ->
  lreturned x b (COk out) -> changes_one (r_command (c_req c)) -> arg (c_req c) 0 = Some k ->
  exists n n' o o', replaced sh scripts s0 sched b k n n' o o' /\
    (o' = o \/ may_change sh scripts s0 sched b c k n o o') /\
    forall l m m' p p', replaced sh scripts s0 sched b l m m' p p' ->
      m' <= n' /\ (mild sh scripts s0 sched b c l m p p' \/ (l = k /\ m = n /\ m' = n' /\ p = o /\ p' = o')).
Proof.
  intros Hroom Hx Hc Hr Hcmd Hk.
  destruct (at_most _ _ _ _ _ _ _ _ Hroom Hx Hc Hr) as (L & ks & t & (HL & Hmd & Hsp) & Hi & Hall & Hl).
  assert (ks = []) as ->. { unfold spent in Hsp. by destruct Hcmd as [E|[E|[E|[E|[E|[E|E]]]]]]; rewrite E in Hsp. }
  assert (Ha : aims c = [k]).
  { unfold aims. rewrite Hk, decide_False; [done|]. by destruct Hcmd as [E|[E|[E|[E|[E|[E|E]]]]]]; rewrite E. }
  rewrite Ha, app_nil_r in HL. apply (f_equal reverse) in HL. rewrite reverse_involutive in HL. cbn in HL.
  destruct L as [|[k1 [n n']] [|? ?]]; try done. cbn in HL. injection HL as ->.
  destruct (Hmd k n n') as (o & o' & Hch); [by left|]. exists n, n', o, o'. split; [done|].
  split; [by eapply c125_each|]. intros l m m' p p' Hre. split; [by apply (Hl eq_refl (k, (n, n')) eq_refl _ _ _ _ _ Hre)|].
  destruct (Hall _ _ _ _ _ Hre) as [|Hin]; [by left|right]. apply elem_of_list_singleton in Hin. simplify_eq.
  split_and!; [done|done|done| |].
  - eapply noticed_once; [apply Hch|apply Hre].
  - eapply noticed_once; [apply Hch|apply Hre].
Qed.

Lemma same_end sh scripts s0 sched b k n m n' o o' p p' :
  replaced sh scripts s0 sched b k n n' o o' -> replaced sh scripts s0 sched b k m n' p p' -> n = m.
Proof.
  intros (H1 & (_ & y1 & Hy1 & _ & Hu1 & _) & _ & Hw1) (H2 & (_ & y2 & Hy2 & _ & Hu2 & _) & _ & Hw2).
  destruct (lt_eq_lt_dec n m) as [[Hlt|]|Hlt]; [|done|]; exfalso.
  - eapply writing_locked; [apply (Hw1 m y2); [lia|lia|done]|done|done].
  - eapply writing_locked; [apply (Hw2 n y1); [lia|lia|done]|done|done].
Qed.

Lemma rename_exact sh scripts s0 sched x b c r k d n n' i i' v o :
  room_for_all scripts s0 -> lsys_run sh sched (lbegin scripts s0) = Some x -> call_at scripts b = Some c ->
  lreturned x b r -> r_command (c_req c) = CRename -> arg (c_req c) 0 = Some k -> arg (c_req c) 1 = Some d ->
  n' <= i -> replaced sh scripts s0 sched b k n n' (Some v) None -> replaced sh scripts s0 sched b d i i' o (Some v) ->
  (forall l j j' p p', replaced sh scripts s0 sched b l j j' p p' -> j' <= i') ->
  forall l j j' p p', replaced sh scripts s0 sched b l j j' p p' ->
    p' = p \/ (l = k /\ j = n /\ j' = n' /\ p = Some v /\ p' = None) \/ (l = d /\ j = i /\ j' = i' /\ p = o /\ p' = Some v).
Proof.
  intros Hroom Hx Hc Hr E Hk Hd Hni Hrem Hins Hlast.
  destruct (at_most _ _ _ _ _ _ _ _ Hroom Hx Hc Hr) as (L & ks & t & (HL & Hmd & _) & Hi & Hall & Hl).
  unfold aims in HL. rewrite decide_True, Hk, Hd in HL by done.
  assert (Hall' : forall l n n' o o', replaced sh scripts s0 sched b l n n' o o' -> o' = o \/ (l, (n, n')) ∈ L).
  { intros l j j' p p' Hre. destruct (Hall _ _ _ _ _ Hre) as [[|Hm]|]; [by left| |by right]. by rewrite E in Hm. }
  assert (Hin : (k, (n, n')) ∈ L) by (by destruct (Hall' _ _ _ _ _ Hrem)).
  assert (Hone : forall l j j' p p', replaced sh scripts s0 sched b l j j' p p' ->
    p' = p \/ (l = k /\ j = n /\ j' = n') \/ (l = d /\ j = i /\ j' = i')).
  { clear Hall. destruct L as [|[k1 [n1 n1']] [|[k2 [n2 n2']] [|a L]]].
    - by apply elem_of_nil in Hin.
    - cbn in HL. injection HL as -> _. apply elem_of_list_singleton in Hin. intros l j j' p p' Hre.
      destruct (Hall' _ _ _ _ _ Hre) as [|Hin']; [by left|]. apply elem_of_list_singleton in Hin'. right. left. by simplify_eq.
    - cbn in HL. injection HL as -> -> Hks. subst ks. cbn in Hi.
      destruct (Hmd d n1 n1') as (q & q' & Hh); [by left|].
      assert (n1' = i') as ->.
      { pose proof (Hl eq_refl _ eq_refl _ _ _ _ _ Hins) as H1. cbn in H1. pose proof (Hlast _ _ _ _ _ Hh). lia. }
      assert (n1 = i) as -> by (by eapply same_end).
      intros l j j' p p' Hre. destruct (Hall' _ _ _ _ _ Hre) as [|Hin']; [by left|]. right.
      apply elem_of_cons in Hin' as [Hin'|Hin']; [right; by simplify_eq|]. left. apply elem_of_list_singleton in Hin'.
      apply elem_of_cons in Hin as [Hin|Hin]; [|apply elem_of_list_singleton in Hin; by simplify_eq].
      exfalso. simplify_eq. destruct Hins. lia.
    - exfalso. apply (f_equal length) in HL. rewrite app_length, reverse_length, fmap_length in HL. cbn in HL. lia. }
  intros l j j' p p' Hre. destruct (Hone _ _ _ _ _ Hre) as [|[(-> & -> & ->)|(-> & -> & ->)]]; [by left|right; left|right; right]; split_and!; try done.
  - eapply noticed_once; [apply Hrem|apply Hre].
  - eapply noticed_once; [apply Hrem|apply Hre].
  - eapply noticed_once; [apply Hins|apply Hre].
  - eapply noticed_once; [apply Hins|apply Hre].
Qed.

(** ** Tasks *)

Lemma c131_tasks sh tasks s0 sched x a e c r k l n n' m m' o o' p p' :
  sendable tasks -> tasks_fit tasks s0 -> at_work sh tasks s0 sched = Some x ->
  task_call tasks a = Some (e, c) -> refused c = None -> got tasks x a r -> (forall k0 d, c <> KRename k0 d) ->
  task_replaced sh tasks s0 sched a k n n' o o' -> task_replaced sh tasks s0 sched a l m m' p p' ->
  task_mild sh tasks s0 sched a c k n o o' \/ task_mild sh tasks s0 sched a c l m p p' \/
  (k = l /\ n = m /\ n' = m' /\ o = p /\ o' = p').
Proof.
  intros Hsend Hfit Hx Hc Hrf Hg Hren H1 H2. assert (Hm : made_by_one tasks e c) by by exists a.
  destruct (Hsend _ _ Hm) as [He Hl]. pose proof (got_cases _ _ _ _ _ _ Hsend Hc Hg) as H. rewrite Hrf in H.
  destruct H as (b & bl & q & Hs & Hb & Hd & Hq & _).
  assert (Hcmd : r_command (into_request bl) <> CRename).
  { pose proof (build_asks e c bl He Hl Hb) as Ha. destruct c; cbn in Ha; destruct Ha as (Hcmd & _); rewrite Hcmd; try done.
    by edestruct Hren. }
  destruct (c131_once sh (map dispatches tasks) s0 sched x b _ q k l n n' m m' o o' p p' (fit_room _ _ Hfit) Hx Hd Hq Hcmd)
    as [Hch|[Hch|Hch]]; [by eapply tasks_replaced|by eapply tasks_replaced| | |].
  - left. by eapply mild_tasks.
  - right. left. by eapply mild_tasks.
  - by right; right.
Qed.

Lemma c131_tasks_adds sh tasks s0 sched x a e c r k l n n' m m' o o' p p' :
  sendable tasks -> tasks_fit tasks s0 -> at_work sh tasks s0 sched = Some x ->
  task_call tasks a = Some (e, c) -> refused c = None -> got tasks x a r -> (forall k0 d, c <> KRename k0 d) ->
  (forall j w, ~ sets_to c j w) -> (forall j t i, opens_with c j t -> ~ task_noticed sh tasks s0 sched a j i None) ->
  task_replaced sh tasks s0 sched a k n n' o o' -> o' <> o -> task_replaced sh tasks s0 sched a l m m' p p' -> p' <> p ->
  k = l /\ n = m /\ n' = m' /\ o = p /\ o' = p'.
Proof.
  intros Hsend Hfit Hx Hc Hrf Hg Hren Hset Hno H1 Ho H2 Hp.
  assert (Hnm : forall j i q q', task_mild sh tasks s0 sched a c j i q q' -> q' = q).
  { intros j i q q' [|[(w & Hw & _)|(t & i' & Ht & _ & Hn & _)]]; [done|by destruct (Hset j w)|by destruct (Hno j t i')]. }
  destruct (c131_tasks _ _ _ _ _ _ _ _ _ _ _ _ _ _ _ _ _ _ _ Hsend Hfit Hx Hc Hrf Hg Hren H1 H2) as [Hm|[Hm|Hm]]; [..|done];
    apply Hnm in Hm; congruence.
Qed.

Lemma c131_tasks_rename sh tasks s0 sched x a e c k d r :
  sendable tasks -> tasks_fit tasks s0 -> at_work sh tasks s0 sched = Some x ->
  task_call tasks a = Some (e, c) -> refused c = None -> got tasks x a r -> c = KRename k d ->
  exists n1 n1' n2 n2', n1' <= n2 /\ forall l n n' o o', task_replaced sh tasks s0 sched a l n n' o o' ->
    o' = o \/ (l = k /\ n = n1 /\ n' = n1') \/ (l = d /\ n = n2 /\ n' = n2').
Proof.
  intros Hsend Hfit Hx Hc Hrf Hg ->. assert (Hm : made_by_one tasks e (KRename k d)) by by exists a.
  destruct (Hsend _ _ Hm) as [He Hl]. pose proof (got_cases _ _ _ _ _ _ Hsend Hc Hg) as H. rewrite Hrf in H.
  destruct H as (b & bl & q & Hs & Hb & Hd & Hq & _).
  pose proof (build_asks e _ bl He Hl Hb) as Ha. cbn in Ha. destruct Ha as (Hcmd & _ & Hargs).
  assert (Hk0 : arg (into_request bl) 0 = Some k) by (by rewrite (carried_arg _ _ _ Hargs)).
  assert (Hk1 : arg (into_request bl) 1 = Some d) by (by rewrite (carried_arg _ _ _ Hargs)).
  destruct (c131_rename sh (map dispatches tasks) s0 sched x b _ q k d (fit_room _ _ Hfit) Hx Hd Hq Hcmd Hk0 Hk1) as (n1 & n1' & n2 & n2' & Hle & Hall).
  exists n1, n1', n2, n2'. split; [done|]. intros l n n' o o' Hre. eapply Hall. by eapply tasks_replaced.
Qed.

Lemma c131_tasks_last sh tasks s0 sched x a e c r k l n n' m m' o o' p p' :
  sendable tasks -> tasks_fit tasks s0 -> at_work sh tasks s0 sched = Some x ->
  task_call tasks a = Some (e, c) -> refused c = None -> got tasks x a r -> (forall k0 d, c <> KRename k0 d) ->
  task_replaced sh tasks s0 sched a k n n' o o' -> ~ task_mild sh tasks s0 sched a c k n o o' ->
  task_replaced sh tasks s0 sched a l m m' p p' -> m' <= n'.
Proof.
  intros Hsend Hfit Hx Hc Hrf Hg Hren H1 Hn H2. assert (Hm : made_by_one tasks e c) by by exists a.
  destruct (Hsend _ _ Hm) as [He Hl]. pose proof (got_cases _ _ _ _ _ _ Hsend Hc Hg) as H. rewrite Hrf in H.
  destruct H as (b & bl & q & Hs & Hb & Hd & Hq & _).
  assert (Hcmd : r_command (into_request bl) <> CRename).
  { pose proof (build_asks e c bl He Hl Hb) as Ha. destruct c; cbn in Ha; destruct Ha as (Hcmd & _); rewrite Hcmd; try done.
    by edestruct Hren. }
  eapply (c131_last sh (map dispatches tasks) s0 sched x b _ q k l n n' m m' o o' p p' (fit_room _ _ Hfit) Hx Hd Hq Hcmd);
    [by eapply tasks_replaced| |by eapply tasks_replaced].
  intros Hch. apply Hn. by eapply mild_tasks.
Qed.

Lemma c131_tasks_moved sh tasks s0 sched x a e k d w :
  sendable tasks -> tasks_fit tasks s0 -> at_work sh tasks s0 sched = Some x ->
  task_call tasks a = Some (e, KRename k d) -> k <> [] -> d <> [] -> got tasks x a (ROk w) ->
  exists n n' i i' v o, n' <= i /\
    task_replaced sh tasks s0 sched a k n n' (Some v) None /\ task_replaced sh tasks s0 sched a d i i' o (Some v) /\
    forall l j j' p p', task_replaced sh tasks s0 sched a l j j' p p' ->
      p' = p \/ (l = k /\ j = n /\ j' = n' /\ p = Some v /\ p' = None) \/ (l = d /\ j = i /\ j' = i' /\ p = o /\ p' = Some v).
Proof.
  intros Hsend Hfit Hx Hc Hk Hd Hg. assert (Hm : made_by_one tasks e (KRename k d)) by by exists a.
  destruct (c124_tasks_rename _ _ _ _ _ _ _ _ _ _ Hsend Hfit Hx Hc Hk Hd Hg)
    as [[[=] _]|[[[=] _]|(_ & m & n & n' & i & i' & v & o & _ & Hni & _ & Hrem & Hins & Hlast)]].
  exists n, n', i, i', v, o. split; [done|]. split; [done|]. split; [done|].
  destruct (Hsend _ _ Hm) as [He Hl]. pose proof (got_cases _ _ _ _ _ _ Hsend Hc Hg) as H.
  assert (Hrf : refused (KRename k d) = None). { apply nonempty in Hk, Hd. cbn. by rewrite Hk, Hd. }
  rewrite Hrf in H. destruct H as (b & bl & q & Hs & Hb & Hcl & Hq & _).
  pose proof (build_asks e _ bl He Hl Hb) as Ha. cbn in Ha. destruct Ha as (Hcmd & _ & Hargs).
  assert (Hk0 : arg (into_request bl) 0 = Some k) by (by rewrite (carried_arg _ _ _ Hargs)).
  assert (Hk1 : arg (into_request bl) 1 = Some d) by (by rewrite (carried_arg _ _ _ Hargs)).
  intros l j j' p p' Hre.
  eapply (rename_exact sh (map dispatches tasks) s0 sched x b _ q k d n n' i i' v o (fit_room _ _ Hfit) Hx Hcl Hq Hcmd Hk0 Hk1 Hni);
    [by eapply tasks_replaced|by eapply tasks_replaced| |by eapply tasks_replaced].
  intros l0 j0 j0' p0 p0' H0. eapply Hlast. by eapply replaced_tasks.
Qed.

Lemma c131_tasks_did sh tasks s0 sched x a e c k w :
  sendable tasks -> tasks_fit tasks s0 -> at_work sh tasks s0 sched = Some x ->
  task_call tasks a = Some (e, c) -> changes_key c k -> refused c = None -> got tasks x a (ROk w) ->
  exists n n' o o', task_replaced sh tasks s0 sched a k n n' o o' /\
    (o' = o \/ task_may_change sh tasks s0 sched a e c k n o o') /\
    forall l m m' p p', task_replaced sh tasks s0 sched a l m m' p p' ->
      m' <= n' /\ (task_mild sh tasks s0 sched a c l m p p' \/ (l = k /\ m = n /\ m' = n' /\ p = o /\ p' = o')).
Proof.
  intros Hsend Hfit Hx Hc Hch Hrf Hg. assert (Hm : made_by_one tasks e c) by by exists a.
  destruct (Hsend _ _ Hm) as [He Hl]. pose proof (got_cases _ _ _ _ _ _ Hsend Hc Hg) as H. rewrite Hrf in H.
  destruct H as (b & bl & q & Hs & Hb & Hd & Hq & Hfin).
  assert (Hq' : exists out, q = COk out).
  { destruct q as [out|err out|]; [by exists out|..]; by cbn in Hfin. }
  destruct Hq' as [out ->].
  destruct (changes_key_asks e c k bl He Hl Hch Hb) as (cmd & kt & l & (Hcmd & Hkt & Hargs) & Hone & _).
  assert (Hk0 : arg (into_request bl) 0 = Some k) by (by rewrite (carried_arg _ _ _ Hargs)).
  rewrite <-Hcmd in Hone.
  destruct (c131_did sh (map dispatches tasks) s0 sched x b _ k out (fit_room _ _ Hfit) Hx Hd Hq Hone Hk0)
    as (n & n' & o & o' & H1 & _ & H2).
  assert (H1' : task_replaced sh tasks s0 sched a k n n' o o') by (by eapply replaced_tasks).
  exists n, n', o, o'. split; [done|]. split; [by eapply c125_tasks_each|]. intros l0 m m' p p' Hre.
  destruct (H2 l0 m m' p p') as [H3 [H4|H4]]; [by eapply tasks_replaced|split; [done|left; by eapply mild_tasks]|by split; [|right]].
Qed.
