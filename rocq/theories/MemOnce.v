(** Tasks that share a memory client and add to a key while others set it, delete it or rename it away: the proof
    of C121 for tasks. *)
From Verif Require Import Locks LockSpec LockScripts LockScriptSpec.
From Verif Require Import Bytes BytesFacts Utf8 Float64 Value CommandId
  Request Response RespContext Metrics Prog Commands EngineSpec WireSpec RequestSpec
  HistorySpec EngineProps ConcSpec ConcFacts ConcProps Scripts LinSpec LinFacts KeyLinSpec KeyLin KeyLinFacts
  LockScriptFacts Client ClientSpec ClientFacts ClientProps MemTasks MemTaskSpec MemTaskFacts
  MemAppendSpec MemAppend SetRaceSpec SetRaceFacts TakeRaceSpec MemRaceSpec MemRaceFacts ForwardSpec ForwardFacts MemForwardSpec MemForward
  StartRaceSpec StartRace MemStartSpec MemStart OnceSpec OnceFacts MemOnceSpec.
From stdpp Require Import gmap list.
From Coq Require Import NArith ZArith Lia ZifyBool ZifyNat ZifyN.

(** From dispatches to the calls of tasks.  [f v] is the amount that the request for [v] carries. *)
Section transfer.
  Context {A B : Type} (R : nat * nat -> nat * nat -> Prop).
  Context (adds : nat * nat -> A -> Prop) (puts : nat * nat -> value -> Prop) (dels sent : nat * nat -> Prop)
    (first : option value) (zero : value) (sum : value -> list A -> value)
    (bef : nat * nat -> nat * nat -> Prop) (begun over : nat * nat -> Prop) (told : nat * nat -> value -> Prop)
    (reads none : nat * nat -> Prop).
  Context (adds' : nat * nat -> B -> Prop) (puts' : nat * nat -> value -> Prop) (dels' sent' : nat * nat -> Prop)
    (sum' : value -> list B -> value)
    (bef' : nat * nat -> nat * nat -> Prop) (begun' over' : nat * nat -> Prop) (told' : nat * nat -> value -> Prop)
    (reads' none' : nat * nat -> Prop).
  Context (f : B -> A).
  Hypothesis Rinj : forall a a' p, R a p -> R a' p -> a = a'.
  Hypothesis Rfun : forall a p p', R a p -> R a p' -> p = p'.
  Hypothesis Hadds : forall p d, adds p d -> exists a v, R a p /\ adds' a v /\ f v = d.
  Hypothesis Hadds' : forall a v, adds' a v -> exists p, R a p /\ adds p (f v).
  Hypothesis Hputs : forall p v, puts p v -> exists a, R a p /\ puts' a v.
  Hypothesis Hputs' : forall a v, puts' a v -> exists p, R a p /\ puts p v.
  Hypothesis Hdels : forall p, dels p -> exists a, R a p /\ dels' a.
  Hypothesis Hdels' : forall a, dels' a -> exists p, R a p /\ dels p.
  Hypothesis Hsent : forall p, sent p -> exists a, R a p /\ sent' a.
  Hypothesis Hbef : forall a a' p p', R a p -> R a' p' -> bef' a a' -> bef p p'.
  Hypothesis Hbegun : forall a p, R a p -> begun p -> begun' a.
  Hypothesis Hover : forall a p, R a p -> over' a -> over p.
  Hypothesis Hsum : forall v vs, sum' v vs = sum v (map f vs).
  Hypothesis Htold : forall a p v l vs, (v = zero \/ first = Some v \/ exists b, puts' b v) ->
    (exists d, adds' a d) \/ reads' a -> NoDup l -> Forall2 adds' l vs -> R a p -> over' a -> told p (sum' v vs) -> told' a (sum' v vs).

  Hypothesis Hreads' : forall a, reads' a -> exists p, R a p /\ reads p.
  Hypothesis Hnone : forall a p, reads' a -> R a p -> over' a -> none p -> none' a.

  Lemma tr_clears p : clears puts dels p -> exists a, R a p /\ clears puts' dels' a.
  Proof using Hputs Hdels.
    intros [H|[v H]]; [destruct (Hdels p H) as (a & ? & ?)|destruct (Hputs p v H) as (a & ? & ?)]; exists a; split; try done.
    - by left.
    - right. by exists v.
  Qed.
  Lemma tr_clears' a : clears puts' dels' a -> exists p, R a p /\ clears puts dels p.
  Proof using Hputs' Hdels'.
    intros [H|[v H]]; [destruct (Hdels' a H) as (p & ? & ?)|destruct (Hputs' a v H) as (p & ? & ?)]; exists p; split; try done.
    - by left.
    - right. by exists v.
  Qed.
  Lemma tr_may_clear p : may_clear puts dels sent p -> exists a, R a p /\ may_clear puts' dels' sent' a.
  Proof using Hputs Hdels Hsent.
    intros [H|H]; [destruct (tr_clears p H) as (a & ? & ?)|destruct (Hsent p H) as (a & ? & ?)]; exists a; split; try done.
    - by left.
    - by right.
  Qed.

  Lemma tr_base (some some' pst pst' : nat * nat -> Prop) v :
    (forall a p, R a p -> some p -> some' a) -> (forall a p, R a p -> pst' a -> pst p) ->
    base_of puts dels sent first zero bef some pst v -> base_of puts' dels' sent' first zero bef' some' pst' v.
  Proof using All.
    intros Hs Hp [(-> & H)|[(A1 & A2)|(b & A1 & A2 & A3)]].
    - left. split; [done|]. destruct H as [?|(t & Ht & ?)]; [by left|right].
      destruct (tr_may_clear t Ht) as (a & ? & ?). exists a. eauto.
    - right. left. split; [done|]. intros t Ht Hpt. destruct (tr_clears' t Ht) as (p & ? & Hc). by eapply A2, Hp.
    - right. right. destruct (Hputs b v A1) as (a & Ha & Hv). exists a. split_and!; [done|by eapply Hs|].
      intros t Ht Hpt Hb. destruct (tr_clears' t Ht) as (p & ? & Hc). by eapply A3, Hbef; [exact Hc|eapply Hp|..].
  Qed.

  Lemma tr_list l es : Forall2 adds l es -> exists l' vs, Forall2 R l' l /\ Forall2 adds' l' vs /\ map f vs = es.
  Proof using Hadds.
    induction 1 as [|p d l es Hp HF IH]; [by exists [], []|]. destruct IH as (l' & vs & I1 & I2 & <-).
    destruct (Hadds _ _ Hp) as (a & v & Ha & Hv & <-). exists (a :: l'), (v :: vs).
    split_and!; [by constructor..|done].
  Qed.

  Lemma tr_nodup l' l : Forall2 R l' l -> NoDup l -> NoDup l'.
  Proof using Rfun.
    induction 1 as [|a p l' l Ha HF IH]; [constructor|]. intros [Hn Hnd]%NoDup_cons. constructor; [|by apply IH].
    intros [i Hi]%elem_of_list_lookup. destruct (Forall2_lookup_l _ _ _ _ _ HF Hi) as (p' & Hp' & Ha').
    apply Hn. rewrite (Rfun a p p' Ha Ha'). by eapply elem_of_list_lookup_2.
  Qed.

  Lemma tr_added (pst pst' : nat * nat -> Prop) l' l vs : (forall a p, R a p -> pst' a -> pst p) ->
    Forall2 R l' l -> Forall2 adds' l' vs -> added_up adds puts dels bef pst l (map f vs) ->
    added_up adds' puts' dels' bef' pst' l' vs.
  Proof using All.
    intros Hp HR HF (A1 & A2 & A3 & A4). split_and!; [by eapply tr_nodup|done| |].
    - intros a t [i Hi]%elem_of_list_lookup Ht Hpt Hb. destruct (Forall2_lookup_l _ _ _ _ _ HR Hi) as (p & Hpi & Ha).
      destruct (tr_clears' t Ht) as (q & Hq & Hc). eapply A3; [by eapply elem_of_list_lookup_2|exact Hc|by eapply Hp|].
      by eapply Hbef.
    - intros i j a b Hi Hj He.
      destruct (Forall2_lookup_l _ _ _ _ _ HR Hi) as (p & Hp1 & Hs).
      destruct (Forall2_lookup_l _ _ _ _ _ HR Hj) as (p' & Hp' & Hs').
      apply (A4 _ _ _ _ Hp1 Hp'). by eapply Hbef.
  Qed.

  Lemma tr_nothing b q : R b q -> found_nothing adds puts dels sent first bef begun q ->
    found_nothing adds' puts' dels' sent' first bef' begun' b.
  Proof using All.
    intros Hb [[C1 C2]|(t & C1 & C0 & C2 & C3)]; [left|right].
    - split; [done|]. intros a' v' Ha' He. destruct (Hadds' _ _ Ha') as (p' & Hs' & Hp').
      eapply C2; [exact Hp'|]. by eapply Hbef.
    - destruct (tr_may_clear t C1) as (t' & Ht' & Hc'). exists t'. split_and!; [done|by eapply Hbegun| |].
      + intros He. apply C2. by eapply Hbef.
      + intros a' v' Ha' H1' H2'. destruct (Hadds' _ _ Ha') as (p' & Hs' & Hp').
        eapply C3; [exact Hp'|by eapply Hbef|by eapply Hbef].
  Qed.

  Lemma tr_wipe a p q : R a p -> may_wipe adds puts dels sent first bef begun p q ->
    exists b, R b q /\ may_wipe adds' puts' dels' sent' first bef' begun' a b.
  Proof using All.
    intros Hs (B1 & B0 & B2 & B3).
    assert (Hfrom : forall b, R b q -> b <> a /\ begun' b /\ ~ bef' b a).
    { intros b Hb. split_and!; [|by eapply Hbegun|intros He; apply B2; by eapply Hbef].
      intros ->. apply B1. by eapply Rfun. }
    destruct B3 as [B3|[[dq B3] B5]].
    - destruct (tr_may_clear q B3) as (b & Hb & Hc). destruct (Hfrom b Hb) as (? & ? & ?). exists b.
      split; [done|]. split_and!; try done. by left.
    - destruct (Hadds _ _ B3) as (b & w & Hb & Hw & _). destruct (Hfrom b Hb) as (? & ? & ?). exists b.
      split; [done|]. split_and!; try done. right. split; [by exists w|]. by eapply tr_nothing.
  Qed.

  Lemma tr_see a p v l es : R a p -> may_see adds puts dels sent first zero bef begun p v l es ->
    exists l' vs, Forall2 R l' l /\ map f vs = es /\ may_see adds' puts' dels' sent' first zero bef' begun' a v l' vs.
  Proof using All.
    intros Hs (L1 & L2 & L3 & L4). pose proof L2 as (_ & L2b & _).
    destruct (tr_list _ _ L2b) as (l' & vs & S1 & S2 & <-). exists l', vs. split_and!; [done|done|].
    split_and!.
    - eapply (tr_base (fun b => begun b /\ ~ bef p b) _ (fun t => bef t p)); [| |exact L1].
      + intros b q Hq [Hn Hb]. split; [by eapply Hbegun|]. intros He. apply Hb. by eapply Hbef.
      + intros b q Hq Hb. by eapply Hbef.
    - eapply (tr_added (fun t => bef t p) _ l' l); [|done|done|done]. intros b q Hq Hb'. by eapply Hbef.
    - intros b [i Hi]%elem_of_list_lookup. destruct (Forall2_lookup_l _ _ _ _ _ S1 Hi) as (q & Hq & Hb).
      destruct (L3 q) as [Hn Hbf]; [by eapply elem_of_list_lookup_2|]. split; [by eapply Hbegun|].
      intros He. apply Hbf. by eapply Hbef.
    - intros b d Hd Hba Hn. destruct (Hadds' _ _ Hd) as (q & Hb & Hq).
      destruct (L4 q _ Hq) as (w & Hw & Hnw); [by eapply Hbef| |].
      + intros [i Hi]%elem_of_list_lookup. destruct (Forall2_lookup_r _ _ _ _ _ S1 Hi) as (b' & Hb' & Hs').
        pose proof (Rinj _ _ _ Hb Hs') as <-. by apply Hn, (elem_of_list_lookup_2 _ i).
      + destruct (tr_wipe b q w Hb Hw) as (w' & Hw' & ?). exists w'. split; [done|].
        intros He. apply Hnw. by eapply Hbef.
  Qed.

  Lemma base_known some pst v : base_of puts' dels' sent' first zero bef' some pst v ->
    v = zero \/ first = Some v \/ exists b, puts' b v.
  Proof. intros [(? & _)|[(? & _)|(b & ? & _)]]; eauto. Qed.

  Lemma once_moved now base out ds :
    counted_once adds puts dels sent first zero bef sum begun over told reads none now base out ds ->
    exists out' vs, counted_once adds' puts' dels' sent' first zero bef' sum' begun' over' told' reads' none' now base
      out' vs.
  Proof using All.
    intros (H1 & H2 & H3 & H4 & H5 & H6 & H7).
    pose proof H2 as (H2a & H2b & _). destruct (tr_list _ _ H2b) as (out' & vs & HS & HV & <-).
    assert (Hnd : NoDup out') by by eapply tr_nodup.
    assert (Hbase : base_of puts' dels' sent' first zero bef' begun' over' base) by (by eapply tr_base).
    exists out', vs. split_and!.
    - done.
    - by eapply tr_added.
    - rewrite Hsum. destruct H3 as [?|(A1 & -> & A3)]; [by left|right].
      split_and!; [done|by apply Forall2_nil_inv_r in HS|].
      destruct A3 as [[B1 B2]|(t & B1 & B2 & B3)]; [left|right].
      + split; [done|]. intros a v Ha Ho. destruct (Hadds' _ _ Ha) as (p & Hs & Hp). by eapply B2, Hover.
      + destruct (tr_may_clear t B1) as (b & Hb & Hcb). exists b. split_and!; [done|by eapply Hbegun|].
        intros a v Ha Hba Ho. destruct (Hadds' _ _ Ha) as (p & Hs & Hp).
        eapply B3; [exact Hp|by eapply Hbef|by eapply Hover].
    - intros i a Hi Ho. destruct (Forall2_lookup_l _ _ _ _ _ HS Hi) as (p & Hp & Hs).
      eapply (Htold a p base (take (S i) out')); try done.
      + by eapply base_known.
      + destruct (Forall2_lookup_l _ _ _ _ _ HV Hi) as (v & _ & ?). left. by exists v.
      + rewrite <-(take_drop (S i) out') in Hnd. by apply NoDup_app in Hnd as [? _].
      + by apply Forall2_take.
      + rewrite Hsum, <-firstn_map. apply H4; [done|]. by eapply Hover.
    - intros a v Ha Ho. destruct (Hadds' _ _ Ha) as (p & Hs & Hp).
      destruct (H5 p _ Hp) as (w & l & es & L1 & L2); [by eapply Hover|].
      destruct (tr_see a p w (l ++ [p]) es Hs L1) as (l' & ws & S1 & <- & L1').
      apply Forall2_app_inv_r in S1 as (l1 & l2 & S1 & S3 & ->).
      apply Forall2_cons_inv_r in S3 as (a' & l3 & Sa & S3 & ->). apply Forall2_nil_inv_r in S3 as ->.
      pose proof (Rinj _ _ _ Hs Sa) as <-. exists w, l1, ws. split; [done|].
      pose proof L1' as (Lb & (Ln & Lf & _) & _).
      eapply (Htold a p w (l1 ++ [a])); [by eapply base_known|left; by exists v|done|done|done|done|by rewrite Hsum].
    - intros a v Ha Ho Hn. destruct (Hadds' _ _ Ha) as (p & Hs & Hp).
      destruct (H6 p _ Hp) as (q & Hq).
      + by eapply Hover.
      + intros [i Hi]%elem_of_list_lookup. destruct (Forall2_lookup_r _ _ _ _ _ HS Hi) as (a' & Ha' & Hs').
        pose proof (Rinj _ _ _ Hs Hs') as <-. by apply Hn, (elem_of_list_lookup_2 _ i).
      + destruct (tr_wipe a p q Hs Hq) as (b & _ & ?). by exists b.
    - intros a Ha Ho. destruct (Hreads' a Ha) as (p & Hs & Hp).
      destruct (H7 p Hp) as [(w & l & es & L1 & L2)|[L1 L2]]; [by eapply Hover|left|right].
      + destruct (tr_see a p w l es Hs L1) as (l' & ws & S1 & <- & L1'). exists w, l', ws. split; [done|].
        pose proof L1' as (Lb & (Ln & Lf & _) & _).
        eapply (Htold a p w l'); [by eapply base_known|by right|done|done|done|done|by rewrite Hsum].
      + split; [by eapply tr_nothing|by eapply Hnone].
  Qed.
End transfer.

(** Which call a request comes from. *)
Lemma delete_call e c bl k : env_ok e -> (sends c <= 255)%N -> build e c = ROk bl ->
  deletes (Call e (into_request bl) []) k -> c = KDelete k.
Proof.
  intros He Hs Hb (l & Hcmd & _ & Hl). cbn [c_req] in *. pose proof (build_asks e c bl He Hs Hb) as Ha. revert Ha.
  destruct c; cbn [request_of]; intros (Hc & _ & Hr); rewrite Hcmd in Hc; try done.
  by pose proof (carries_fun _ _ _ Hl Hr) as [= ->].
Qed.

Lemma rename_call e c bl k j : env_ok e -> (sends c <= 255)%N -> build e c = ROk bl ->
  sent_to k j (Call e (into_request bl) []) -> c = KRename k j.
Proof.
  intros He Hs Hb (l & Hcmd & _ & Hl). cbn [c_req] in *. pose proof (build_asks e c bl He Hs Hb) as Ha. revert Ha.
  destruct c; cbn [request_of]; intros (Hc & _ & Hr); rewrite Hcmd in Hc; try done.
  by pose proof (carries_fun _ _ _ Hl Hr) as [= -> ->].
Qed.

Lemma set_call e c bl k v : env_ok e -> (sends c <= 255)%N -> build e c = ROk bl ->
  sets_to k (Call e (into_request bl) []) v -> exists w, sets_value c k w.
Proof.
  intros He Hs Hb (l & (Hcmd & _ & Hl) & _). cbn [c_req] in *. pose proof (build_asks e c bl He Hs Hb) as Ha. revert Ha.
  destruct c; cbn [request_of]; intros (Hc & _ & Hr); rewrite Hcmd in Hc; try done;
    pose proof (carries_fun _ _ _ Hl Hr) as [= -> _]; eexists; by (left + right).
Qed.

(** A call that gets the key. *)
Lemma reads_place tasks k t a : sendable tasks -> k <> [] -> task_reads tasks k t a ->
  exists p, same_place tasks a p /\ reads_there (map dispatches tasks) k t p.
Proof.
  intros Hsend Hne (e & c & Hc & Hrd). assert (Hm : made_by_one tasks e c) by by eexists.
  destruct (Hsend _ _ Hm) as [He Hl].
  destruct (makes_built e c He Hl) as (bl & Hb & _); [by eapply reads_refused|].
  destruct (tasks_call_at _ _ _ _ _ Hc Hb) as (p & Hs & Hd). exists p. split; [done|].
  eexists. split; [exact Hd|]. by eapply reads_built.
Qed.

Lemma none_place tasks k t x a p : task_reads tasks k t a -> same_place tasks a p -> task_over tasks x a ->
  ltold_none (map dispatches tasks) x p -> task_none tasks x a.
Proof.
  intros (e & c & Hc & Hrd) Hs [r Hg] (dd & Hd & Hq).
  destruct (got_returned _ _ _ _ _ _ _ Hs Hc Hg) as (q' & Hq' & ->).
  assert (q' = CErr EKeyNonexistent (c_res dd)) as ->.
  { destruct Hq as (cl & E1 & E2), Hq' as (cl' & E1' & E2'). congruence. }
  destruct (call_at_tasks _ _ _ Hd) as (a' & e' & c' & bl & Hs' & Hc' & Hb & ->). unfold task_none.
  by destruct Hrd as [->| ->].
Qed.

Section places.
  Context (tasks : list task) (k : bytes).
  Hypothesis Hsend : sendable tasks.
  Hypothesis Hval : forall e c v, made_by_one tasks e c -> sets_value c k v -> refused c = None -> sound v.

  Lemma puts_place p v : puts_there (map dispatches tasks) k p v -> exists a, same_place tasks a p /\ task_puts tasks k a v.
  Proof using All.
    intros (d & Hd & Hs). destruct (call_at_tasks _ _ _ Hd) as (a & e & c & bl & Hp & Hc & Hb & ->).
    assert (Hm : made_by_one tasks e c) by by eexists. destruct (Hsend _ _ Hm) as [He Hl].
    pose proof (build_refused _ _ _ He Hl Hb) as Hr. exists a. split; [done|]. exists e, c. split_and!; [done| |done].
    destruct (set_call _ _ _ _ _ He Hl Hb Hs) as (w & Hw).
    assert (v = w) as -> by (destruct Hs as (l & Hq & Hv); eapply (set_spelt e c k w bl); [done|done|done|by eapply Hval|done|done|]; by exists (Some (kind v)), l, (kind v); eauto).
    done.
  Qed.

  Lemma puts_place' a v : task_puts tasks k a v -> exists p, same_place tasks a p /\ puts_there (map dispatches tasks) k p v.
  Proof using All.
    intros (e & c & Hc & Hv & Hr). assert (Hm : made_by_one tasks e c) by by eexists. destruct (Hsend _ _ Hm) as [He Hl].
    destruct (makes_built e c He Hl Hr) as (bl & Hb & _). destruct (tasks_call_at _ _ _ _ _ Hc Hb) as (p & Hs & Hd).
    exists p. split; [done|]. eexists. split; [exact Hd|]. exists (value_args e v). split; [by eapply set_built|].
    eapply set_arg_value; [done|done|done|by eapply Hval].
  Qed.

  Lemma dels_place p : dels_there (map dispatches tasks) k p -> exists a, same_place tasks a p /\ task_dels tasks k a.
  Proof using Hsend.
    intros (d & Hd & Hs). destruct (call_at_tasks _ _ _ Hd) as (a & e & c & bl & Hp & Hc & Hb & ->).
    assert (Hm : made_by_one tasks e c) by by eexists. destruct (Hsend _ _ Hm) as [He Hl].
    pose proof (build_refused _ _ _ He Hl Hb) as Hr. rewrite (delete_call _ _ _ _ He Hl Hb Hs) in Hc, Hr.
    exists a. split; [done|]. by exists e.
  Qed.

  Lemma dels_place' a : task_dels tasks k a -> exists p, same_place tasks a p /\ dels_there (map dispatches tasks) k p.
  Proof using Hsend.
    intros (e & Hc & Hr). assert (Hm : made_by_one tasks e (KDelete k)) by by eexists. destruct (Hsend _ _ Hm) as [He Hl].
    destruct (makes_built e _ He Hl Hr) as (bl & Hb & _). destruct (tasks_call_at _ _ _ _ _ Hc Hb) as (p & Hs & Hd).
    exists p. split; [done|]. eexists. split; [exact Hd|]. by apply delete_built.
  Qed.

  Lemma sends_place p : sends_there (map dispatches tasks) k p -> exists a, same_place tasks a p /\ task_sends tasks k a.
  Proof using Hsend.
    intros (d & j & Hd & Hs & Hj). destruct (call_at_tasks _ _ _ Hd) as (a & e & c & bl & Hp & Hc & Hb & ->).
    assert (Hm : made_by_one tasks e c) by by eexists. destruct (Hsend _ _ Hm) as [He Hl].
    pose proof (build_refused _ _ _ He Hl Hb) as Hr. rewrite (rename_call _ _ _ _ _ He Hl Hb Hs) in Hc, Hr.
    exists a. split; [done|]. by exists e, j.
  Qed.

  (** A request that may change the key. *)
  Lemma writer_place p d : call_at (map dispatches tasks) p = Some d ->
    exists a e c bl, same_place tasks a p /\ task_call tasks a = Some (e, c) /\ build e c = ROk bl /\
      d = Call e (into_request bl) [] /\ env_ok e /\ (sends c <= 255)%N /\ refused c = None /\
      (takes_away k c -> takes k d) /\ (forall v, sets_value c k v -> sets_to k d v) /\
      (~ changes c k -> ~ may_write (c_req d) k).
  Proof using All.
    intros Hd. destruct (call_at_tasks _ _ _ Hd) as (a & e & c & bl & Hp & Hc & Hb & ->).
    assert (Hm : made_by_one tasks e c) by by eexists. destruct (Hsend _ _ Hm) as [He Hl].
    pose proof (build_refused _ _ _ He Hl Hb) as Hr. exists a, e, c, bl. split_and!; try done.
    - intros Ht. by apply (takes_built tasks k Hsend e c).
    - intros v Hv. exists (value_args e v). split; [by eapply set_built|].
      eapply set_arg_value; [done|done|done|by eapply Hval].
    - intros Hno Hw. apply Hno. by eapply may_write_changes.
  Qed.
End places.

Lemma c121_tasks_counter sh tasks k s0 B D sched x :
  tasks_fit tasks s0 -> sendable tasks -> ordinary k -> k <> [] ->
  (forall e c, made_by_one tasks e c -> (exists d, adds_amount c k d) \/ takes_away k c \/
     (exists v, sets_value c k v) \/ ~ changes c k) ->
  (0 <= B)%Z -> (0 <= D)%Z ->
  (forall v, st_keys s0 !! k = Some v \/ (exists e c, made_by_one tasks e c /\ sets_value c k v) ->
     exists z, v = VInteger z /\ (- B <= z <= B)%Z) ->
  (forall e c d, made_by_one tasks e c -> adds_amount c k d -> - D <= d <= D)%Z ->
  i64_range (B + D * Z.of_nat (length (concat tasks))) ->
  at_work sh tasks s0 sched = Some x ->
  exists now base out ds, (unlocked sh x k -> st_keys x.2 !! k = now) /\
    counted_once (task_adds tasks k) (task_puts tasks k) (task_dels tasks k) (task_sends tasks k) (st_keys s0 !! k)
      (VInteger 0) (earlier sh tasks s0 sched) counted_up (task_begun tasks x) (task_over tasks x) (task_told tasks x)
      (task_reads tasks k KTInteger) (task_none tasks x) now base out ds.
Proof.
  intros Hfit Hsend Hk Hne Hcalls HB HD Hbase Hamt Hr1 Hx.
  pose proof (dispatches_concat tasks) as Hlen.
  assert (Hmul : (D * Z.of_nat (length (concat (map dispatches tasks))) <= D * Z.of_nat (length (concat tasks)))%Z).
  { apply Z.mul_le_mono_nonneg_l; lia. }
  assert (Hpos : (0 <= D * Z.of_nat (length (concat (map dispatches tasks))))%Z) by (apply Z.mul_nonneg_nonneg; lia).
  assert (HrD : i64_range (D * Z.of_nat (length (concat tasks)))) by (unfold i64_range in *; lia).
  assert (Hd64 : forall e c d, made_by_one tasks e c -> adds_amount c k d -> i64_range d).
  { intros e c d [a Hm] Ha. eapply (sum_range D (task_adds tasks k) (concat tasks) [a] [d]) in HrD; try done.
    - cbn in HrD. by rewrite Z.add_0_r in HrD.
    - intros a' d' (e' & c' & Hc' & Ha'). eapply Hamt; [|done]. by eexists.
    - apply task_calls_few; [apply NoDup_singleton|]. intros ? ->%elem_of_list_singleton. by rewrite Hm.
    - constructor; [|done]. by exists e, c. }
  assert (Hval : forall e c v, made_by_one tasks e c -> sets_value c k v -> refused c = None -> sound v).
  { intros e c v Hm Hv _. destruct (Hbase v) as (z & -> & Hz); [right; by exists e, c|].
    split_and!; try done. unfold value_wf, i64_range in *. lia. }
  assert (Hadd : forall p dd, call_at (map dispatches tasks) p = Some dd ->
    (exists a e c d, same_place tasks a p /\ task_call tasks a = Some (e, c) /\ adds_amount c k d /\
       adds_int dd k d /\ (- D <= d <= D)%Z) \/ takes k dd \/ (exists v, sets_to k dd v) \/ ~ may_write (c_req dd) k).
  { intros p dd Hd. destruct (writer_place tasks k Hsend Hval p dd Hd) as (a & e & c & bl & Hs & Hc & Hb & -> & He & Hl & Hr & W1 & W2 & W3).
    assert (Hm : made_by_one tasks e c) by by eexists.
    destruct (Hcalls _ _ Hm) as [[d Ha]|[?|[[v ?]|?]]]; [left|right; left; auto|right; right; left; eauto|right; right; right; auto].
    exists a, e, c, d. split_and!; try done; [|by eapply Hamt..].
    eapply amount_built; [done|by eapply Hd64|done|done]. }
  assert (Hfun : forall p dd d, call_at (map dispatches tasks) p = Some dd -> adds_int dd k d ->
    exists a, same_place tasks a p /\ task_adds tasks k a d /\ (- D <= d <= D)%Z).
  { intros p dd d Hd Ha.
    assert (Hcmd : r_command (c_req dd) <> CDelete /\ r_command (c_req dd) <> CRename /\ r_command (c_req dd) <> CSet).
    { destruct Ha as (cmd & kt & l & (Hq & _) & Hch). rewrite Hq.
      by destruct Hch as [(-> & _)|[(-> & _)|(? & ? & ? & _ & _ & [(-> & _)|(-> & _)])]]. }
    destruct Hcmd as (N1 & N2 & N3).
    destruct (Hadd p dd Hd) as [(a & e & c & d' & Hs & Hc & Hca & Ha' & Hdd)|[Ht|[(v & l' & (Hq' & _) & _)|Hno]]].
    - pose proof (adds_int_fun _ _ _ _ Ha Ha') as <-. exists a. split_and!; try done; [|lia..]. by exists e, c.
    - exfalso. destruct Ht as [(l' & Hq' & _)|(b & _ & l' & Hq' & _)]; congruence.
    - congruence.
    - exfalso. by eapply Hno, adds_int_writes. }
  destruct (c121_counter_locked sh k (map dispatches tasks) s0 B D sched x) as (now & base & out & ds & Hnow & Hmade); try done.
  - by apply fit_room.
  - by apply envs_ok_tasks.
  - intros dd [p Hd]. destruct (Hadd p dd Hd) as [(_ & _ & _ & d & _ & _ & _ & ? & _)|?]; [left; by exists d|by right].
  - intros v [Hv|(dd & [p Hd] & Hv)]; [apply Hbase; by left|]. apply Hbase. right.
    destruct (puts_place tasks k Hsend Hval p v) as (a & _ & e & c & Hc & Hsv & _); [by exists dd|].
    exists e, c. split; [by eexists|done].
  - intros dd d [p Hd] Ha. by destruct (Hfun p dd d Hd Ha) as (_ & _ & _ & ?).
  - unfold i64_range in *; lia.
  - exists now, base. enough (exists out' vs, counted_once (task_adds tasks k) (task_puts tasks k) (task_dels tasks k)
      (task_sends tasks k) (st_keys s0 !! k) (VInteger 0) (earlier sh tasks s0 sched) counted_up (task_begun tasks x)
      (task_over tasks x) (task_told tasks x) (task_reads tasks k KTInteger) (task_none tasks x) now base out' vs) as (out' & vs & Hm) by (by exists out', vs).
    eapply (once_moved (same_place tasks) (adds_there (map dispatches tasks) (fun c => adds_int c k))); [.. |exact Hmade].
    + apply same_place_inj.
    + apply same_place_fun.
    + intros p d (dd & Hd & Ha). destruct (Hfun p dd d Hd Ha) as (a & ? & ? & _). exists a, d. split_and!; [done|done|].
      by instantiate (1 := id).
    + intros a d (e & c & Hc & Ha). assert (Hm : made_by_one tasks e c) by by eexists.
      destruct (Hsend _ _ Hm) as [He Hl].
      destruct (makes_built e c He Hl) as (bl & Hbd & _); [by eapply amount_refused|].
      destruct (tasks_call_at _ _ _ _ _ Hc Hbd) as (p & Hs & Hd). exists p. split; [done|].
      eexists. split; [exact Hd|]. eapply amount_built; [done|by eapply Hd64|done|done].
    + intros p v. by apply puts_place.
    + intros a v. by apply puts_place'.
    + intros p. by apply dels_place.
    + intros a. by apply dels_place'.
    + intros p. by apply sends_place.
    + intros a a' p p' Ha Ha'. by eapply earlier_before.
    + intros a p Hs Hb Hah. apply Hb. by eapply ahead_not_begun.
    + intros a p Hs [r Hg]. by eapply got_dispatch.
    + intros v vs. by rewrite map_id.
    + intros a p v l vs Hv Ha Hnd HF Hs [r Hg] (dd & q & Hd & Hq & Hresp).
      assert (Hsv : exists z, v = VInteger z /\ (- B <= z <= B)%Z).
      { destruct Hv as [->|[Hv|(b & e & c & Hc & Hv & _)]]; [exists 0%Z; split; [done|lia]|apply Hbase; by left|].
        apply Hbase. right. exists e, c. split; [by eexists|done]. }
      destruct Hsv as (z & -> & Hz).
      assert (Hvs : i64_range (z + fold_right Z.add 0 vs)%Z).
      { assert (Hds : Forall (fun d => - D <= d <= D)%Z vs).
        { apply Forall_forall. intros d [i Hi]%elem_of_list_lookup.
          destruct (Forall2_lookup_r _ _ _ _ _ HF Hi) as (a' & _ & e' & c' & Hc' & Ha'). eapply Hamt; [|done]. by eexists. }
        pose proof (summed_bound _ _ Hds) as Hb. rewrite <-(Forall2_length _ _ _ HF) in Hb.
        assert (length l <= length (concat tasks)).
        { apply task_calls_few; [done|]. intros a' [i Hi]%elem_of_list_lookup.
          destruct (Forall2_lookup_l _ _ _ _ _ HF Hi) as (d' & _ & e' & c' & -> & _). done. }
        assert (D * Z.of_nat (length l) <= D * Z.of_nat (length (concat tasks)))%Z by (apply Z.mul_le_mono_nonneg_l; lia).
        unfold i64_range in *; lia. }
      assert (Hadds : exists e c, task_call tasks a = Some (e, c) /\ ((exists d, adds_amount c k d) \/ reads_key c k KTInteger)).
      { destruct Ha as [(d & e & c & Hc & Hca)|(e & c & Hc & Hca)]; exists e, c; eauto. }
      destruct Hadds as (e & c & Hc & Hca).
      destruct (got_returned _ _ _ _ _ _ _ Hs Hc Hg) as (q' & Hq' & ->).
      assert (q' = q) as ->.
      { destruct Hq as (cl & E1 & E2), Hq' as (cl' & E1' & E2'). congruence. }
      unfold task_told. destruct (call_at_tasks _ _ _ Hd) as (a' & e' & c' & bl & Hs' & Hc' & Hb & ->).
      pose proof (same_place_inj _ _ _ _ Hs Hs') as <-. assert (e' = e /\ c' = c) as [-> ->] by (split; congruence).
      cbn [c_env c_res counted_up] in *. destruct Hca as [[d Hca]|Hca].
      * by rewrite <-(finish_amount e c k d _ q Hca Hvs Hresp).
      * by rewrite <-(finish_read e c k KTInteger _ q Hca (sound_int _ Hvs) eq_refl Hresp).
    + intros a Ha. by apply reads_place.
    + intros a p. by apply none_place.
Qed.

(** ** Appends *)

Lemma c121_tasks_log sh tasks k s0 t sched x :
  tasks_fit tasks s0 -> sendable tasks -> ordinary k -> k <> [] ->
  t = KTBytes \/ t = KTList \/ t = KTString ->
  (forall e c, made_by_one tasks e c -> (exists v, appends_value c k v /\ kind v = t /\ value_wf v) \/ takes_away k c \/
     (exists v, sets_value c k v /\ (refused c = None -> sound v)) \/ ~ changes c k) ->
  (forall v, st_keys s0 !! k = Some v \/ (exists e c, made_by_one tasks e c /\ sets_value c k v) -> kind v = t) ->
  at_work sh tasks s0 sched = Some x ->
  exists now base out vs, (unlocked sh x k -> st_keys x.2 !! k = now) /\
    counted_once (task_appends tasks k) (task_puts tasks k) (task_dels tasks k) (task_sends tasks k) (st_keys s0 !! k)
      (blank t) (earlier sh tasks s0 sched) appended_to (task_begun tasks x) (task_over tasks x) (task_hears tasks x)
      (task_reads tasks k t) (task_none tasks x) now base out vs.
Proof.
  intros Hfit Hsend Hk Hne Ht Hcalls Hbase Hx.
  assert (Hset_not : forall c v w, sets_value c k v -> ~ appends_value c k w) by (intros c v w [->| ->] [E|E]; done).
  assert (Htake_not : forall c w, takes_away k c -> ~ appends_value c k w) by (intros c w [->|(b & _ & ->)] [E|E]; done).
  assert (Hcont : forall e v, kind v = t -> value_args e v = content v).
  { intros e v <-. by destruct v, Ht as [?|[?|?]]. }
  assert (Hvl : forall e c v, made_by_one tasks e c -> appends_value c k v -> kind v = t /\ value_wf v).
  { intros e c v Hm Hv. destruct (Hcalls _ _ Hm) as [(v2 & Hv2 & ? & ?)|[?|[(v2 & Hv2 & _)|Hno]]].
    - by assert (v2 = v) as <- by (destruct Hv as [->| ->], Hv2 as [E|E]; congruence).
    - by destruct (Htake_not c v).
    - by destruct (Hset_not c v2 v).
    - exfalso. by eapply Hno, appends_changes. }
  assert (Hval : forall e c v, made_by_one tasks e c -> sets_value c k v -> refused c = None -> sound v).
  { intros e c v Hm Hv Hr. destruct (Hcalls _ _ Hm) as [(v2 & Hv2 & _)|[Htk|[(v2 & Hv2 & Hs)|Hno]]].
    - by destruct (Hset_not c v v2).
    - exfalso. by destruct Hv as [->| ->], Htk as [?|(b & _ & ?)].
    - rewrite (sets_value_inj _ _ _ _ Hv Hv2). by apply Hs.
    - exfalso. by eapply Hno, set_changes. }
  assert (Hfits : forall v, kind v = t -> value_wf v -> is_Some (append_to (blank t) (content v))).
  { intros v Hv Hwf. rewrite <-(Hcont (env_std false) v Hv). rewrite <-joined_append; try done.
    - by destruct v, Ht as [?|[?|?]]; subst t; try done; eexists.
    - by destruct Ht as [->|[->| ->]].
    - by destruct Ht as [->|[->| ->]]. }
  assert (Hback : forall p dd, call_at (map dispatches tasks) p = Some dd ->
    (exists a v, same_place tasks a p /\ task_appends tasks k a v /\ kind v = t /\ value_wf v /\
       appends dd k t (content v)) \/ takes k dd \/ (exists v, sets_to k dd v) \/ ~ may_write (c_req dd) k).
  { intros p dd Hd. destruct (writer_place tasks k Hsend Hval p dd Hd) as (a & e & c & bl & Hs & Hc & Hb & -> & He & Hl & Hr & W1 & W2 & W3).
    assert (Hm : made_by_one tasks e c) by by eexists.
    destruct (Hcalls _ _ Hm) as [(v & Hv & Hkd & Hwf)|[?|[(v & ? & _)|?]]]; [left|right; left; auto|right; right; left; eauto|right; right; right; auto].
    exists a, v. split_and!; try done; [by exists e, c|].
    rewrite <-(Hcont e v Hkd). rewrite <-Hkd. by eapply append_built. }
  destruct (c121_log_locked sh k (map dispatches tasks) s0 t sched x) as (now & base & out & ds & Hnow & Hmade); try done.
  - by apply fit_room.
  - by apply envs_ok_tasks.
  - intros dd [p Hd]. destruct (Hback p dd Hd) as [(a & v & _ & _ & Hkd & Hwf & Hap)|]; [left|by right].
    exists (content v). split; [done|]. by apply Hfits.
  - intros v [Hv|(dd & [p Hd] & Hv)]; [apply Hbase; by left|]. apply Hbase. right.
    destruct (puts_place tasks k Hsend Hval p v) as (a & _ & e & c & Hc & Hsv & _); [by exists dd|].
    exists e, c. split; [by eexists|done].
  - exists now, base. enough (exists out' vs, counted_once (task_appends tasks k) (task_puts tasks k) (task_dels tasks k)
      (task_sends tasks k) (st_keys s0 !! k) (blank t) (earlier sh tasks s0 sched) appended_to (task_begun tasks x)
      (task_over tasks x) (task_hears tasks x) (task_reads tasks k t) (task_none tasks x) now base out' vs) as (out' & vs & Hm) by (by exists out', vs).
    eapply (once_moved (same_place tasks) (adds_there (map dispatches tasks) (fun c => appends c k t))); [.. |exact Hmade].
    + apply same_place_inj.
    + apply same_place_fun.
    + intros p d (dd & Hd & Ha). pose proof Ha as (Hcm & _ & Hap').
      destruct (Hback p dd Hd) as [(a & v & Hs & Hv & Hkd & Hwf & Hap)|[Htk|[(v & l' & (Hq' & _) & _)|Hno]]].
      * exists a, v. split_and!; try done. destruct Hap as (_ & _ & Hap).
        pose proof (carries_fun _ _ _ Hap Hap') as E. injection E as <-. by instantiate (1 := content).
      * exfalso. destruct Htk as [(l' & Hq' & _)|(b & _ & l' & Hq' & _)]; congruence.
      * congruence.
      * exfalso. apply Hno. split; [by rewrite Hcm|]. left. by eapply asks_arg0.
    + intros a v (e & c & Hc & Ha & Hrf). assert (Hm : made_by_one tasks e c) by by eexists.
      destruct (Hsend _ _ Hm) as [He Hl]. destruct (Hvl e c v Hm Ha) as [Hkd Hwf].
      destruct (makes_built e c He Hl Hrf) as (bl & Hbd & _).
      destruct (tasks_call_at _ _ _ _ _ Hc Hbd) as (p & Hs & Hd). exists p. split; [done|].
      eexists. split; [exact Hd|]. rewrite <-(Hcont e v Hkd). rewrite <-Hkd. by eapply append_built.
    + intros p v. by apply puts_place.
    + intros a v. by apply puts_place'.
    + intros p. by apply dels_place.
    + intros a. by apply dels_place'.
    + intros p. by apply sends_place.
    + intros a a' p p' Ha Ha'. by eapply earlier_before.
    + intros a p Hs Hb Hah. apply Hb. by eapply ahead_not_begun.
    + intros a p Hs [r Hg]. by eapply got_dispatch.
    + done.
    + intros a p w l vs Hw Ha Hnd HF Hs [r Hg] (dd & q & Hd & Hq & Hresp) Hvs.
      assert (Hadds : exists e c, task_call tasks a = Some (e, c) /\ ((exists v, appends_value c k v) \/ reads_key c k t)).
      { destruct Ha as [(v & e & c & Hc & Hca & _)|(e & c & Hc & Hca)]; exists e, c; eauto. }
      destruct Hadds as (e & c & Hc & Hca).
      destruct (got_returned _ _ _ _ _ _ _ Hs Hc Hg) as (q' & Hq' & ->).
      assert (q' = q) as ->.
      { destruct Hq as (cl & E1 & E2), Hq' as (cl' & E1' & E2'). congruence. }
      unfold task_told. destruct (call_at_tasks _ _ _ Hd) as (a' & e' & c' & bl & Hs' & Hc' & Hb & ->).
      pose proof (same_place_inj _ _ _ _ Hs Hs') as <-. assert (e' = e /\ c' = c) as [-> ->] by (split; congruence).
      cbn [c_env c_res] in Hresp.
      assert (Hkw : kind w = t).
      { destruct Hw as [->|[Hw|(b & e' & c' & Hc2 & Hw & _)]].
        - by destruct Ht as [->|[->| ->]].
        - apply Hbase. by left.
        - apply Hbase. right. exists e', c'. split; [by eexists|done]. }
      assert (Hks : kind (appended_to w vs) = t) by (unfold appended_to; rewrite <-Hkw; by destruct w).
      destruct Hca as [[v Hca]|Hca].
      * destruct (Hvl e c v) as [Hkd Hwf]; [by eexists|done|].
        rewrite <-(finish_append e c k v _ q Hca Hvs); [done|congruence|done].
      * by rewrite <-(finish_read e c k t _ q Hca Hvs Hks Hresp).
    + intros a Ha. by apply reads_place.
    + intros a p. by apply none_place.
Qed.
